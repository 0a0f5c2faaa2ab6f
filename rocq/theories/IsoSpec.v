(** Reading an ISO offset string: sign, hours, ':' and minutes; the value in
    minutes.  Written independently of the printer. *)
From Coq Require Import ZArith String Ascii DecimalString.
Open Scope string_scope.

Fixpoint split_colon (s : string) : option (string * string) :=
  match s with
  | EmptyString => None
  | String c r =>
      if Ascii.eqb c ":" then Some (EmptyString, r)
      else match split_colon r with
           | Some (a, b) => Some (String c a, b)
           | None => None
           end
  end.
Definition read_number (s : string) : option N :=
  match s with
  | EmptyString => None
  | _ => match NilEmpty.uint_of_string s with
         | Some u => Some (N.of_uint u)
         | None => None
         end
  end.
Definition read_offset (s : string) : option Z :=
  match s with
  | EmptyString => None
  | String c r =>
      match split_colon r with
      | Some (h, m) =>
          match read_number h, read_number m with
          | Some hh, Some mm =>
              if (mm <? 60)%N then
                let v := (Z.of_N hh * 60 + Z.of_N mm)%Z in
                if Ascii.eqb c "-" then Some (- v)%Z
                else if Ascii.eqb c "+" then Some v else None
              else None
          | _, _ => None
          end
      | None => None
      end
  end.
