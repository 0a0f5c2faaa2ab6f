# Design: a machine-checked model of gridded's logical core

## What is modelled and how

The Python sources in `/repo/gridded` are read as text and transcribed, function
by function, into small total Gallina functions (`rocq/theories/*Model.v`).
Every definition cites the file and lines it transcribes and names its
simplifications. Exceptions are values of a `result` type (`Common.err` lists
the Python exception classes). Stateful objects become `init`/`step` machines
and histories are lists of operations.

Values: array indices and shapes are `nat`/`Z`; times are `Z` microseconds;
coordinates, depths and data are exact rationals `Q` (no rounding) except where
a square root or trigonometric function occurs, where Coq's classical reals `R`
are used (SGridInterp, Vector), and where rounding is itself the subject (C09),
where the standard library's executable IEEE-754 `SpecFloat` is used. Masked
entries are `None`, or a value with a flag where the hidden number matters.

For each area there are up to five files:

* `XModel.v`  – transcription of the code, no proofs;
* `XSpec.v`   – what the property means, written without the model's helpers;
* `XProofs.v` (and a few more names) – lemmas;
* `XProps.v`  – the property theorems `cNN_…`, each followed by
  `Print Assumptions`, with `Example`s whose hypotheses are met.

A theorem named `…_partial` proves part of its property: the note in the table
below says what is missing. A theorem named `…_refuted` exhibits an input for
which the property is false of the faithful model; these are the findings.
A property with either is reported as `partial`.

## How each property was planned

| id | modelled | how proved |
|----|----------|-----------|
| C01 | `Time.__init__` (shift pipeline + two checks: sort equality and unique count) | iff with `StronglySorted Z.lt`, insertion sort/unique counted on lists |
| C02 | `index_of` with `searchsorted` as binary search | bracketing + counting spec, induction |
| C03 | `interp_alpha` in `Q` | field arithmetic from C02; monotonicity by cases on brackets |
| C04 | `valid_time`, flags | iff case analysis |
| C05 | `tz_offset` setter as state machine | invariant over histories |
| C06 | `displacement` setter as state machine | invariant over histories |
| C07 | heap of shared arrays | refuted by witness; what holds proved |
| C08 | `__eq__` | laws |
| C09 | `offset_as_iso_string` over `Q` and over binary64 | round trip over `Q`; finite sweep over all whole-minute offsets in binary64 |
| C10 | `_time_interp` | from C02–C04 |
| C11, C28, C63 | FIFO memo dictionaries | invariant over histories |
| C12 | `Variable.at` with its cache | refuted; transparency under the conditions that make it true |
| C13 | `_depth_interp` loop over unique indices incl. the stale `lay_idxs` | refuted for end levels; proved otherwise |
| C14 | `dimension_ordering` | case analysis |
| C15 | `data`/`time` setters | invariant over histories |
| C16 | `_gen_varname(s)` | first-match spec; the vector version is refuted (last match wins) |
| C17, C18 | `faces` setter | accept/reject iff; one-based recognition refuted |
| C19–C22 | topology builders over arbitrary meshes | fold invariants |
| C23 | coordinate means | algebra |
| C24, C25 | `interpolation_alphas`, `interpolate_var_to_points` | field arithmetic |
| C26, C27 | `locate_faces` simple method, `point_in_tri` | first-match spec; orientation refuted |
| C29, C30, C67 | location state machine with memo and cell tree | refuted with witness; conditional positive theorem |
| C31, C34, C40 | `infer_location` | decision table |
| C32, C33, C65 | `Grid_R.locate_faces`, `lonlat_to_yx`, interpolation | bracketing, bilinear algebra |
| C35, C66 | `_get_grid_type`, argument search of the grid factories | decision table, first-match spec |
| C36–C38 | `build_celltree` compaction, `locate_faces` renumbering | list/array lemmas |
| C39 | padding slices and shifts | arithmetic |
| C41 | bilinear weights and the whole node/edge/centre interpolation | real algebra, loop refinement |
| C42–C44 | `x_to_l`, `geo_to_logical` | real algebra; refutations |
| C45 | `compute_interpolant` | per-mode spec; `mask` mode refuted |
| C46–C51, C64 | depth classes | bracketing, boundary conditions, profile algebra, decision table |
| C52–C56 | utilities | shape/decision specs |
| C57, C58 | verdat | loop chaining invariant; printing and parsing of decimal text |
| C59, C71 | `pyugrid/read_netcdf.py`, `UGrid.save` | round trips over files given as lists of variables |
| C60 | attribute parsing on character lists, with a model of the regular expressions used | round trip |
| C61, C68 | rotation over `R`, averaging | trigonometric identities, means |
| C62 | ray casting | xor over edges |
| C69, C70 | `pysgrid/read_netcdf.py`, `variables.py`, `load_grid` loops | first/only-match specs, slicing arithmetic |

## Coverage by source file

| file | modelled | not modelled |
|------|----------|--------------|
@COVERAGE@

Not modelled anywhere: the NetCDF library and file system (a file is a list of
variables with dimensions, attributes and values), the cell-tree and KD-tree
libraries (taken as oracles, described where used), floating-point rounding
outside C09, integer overflow, dateutil parsing, plotting, GUI code.

## Trusted base

* The Coq 8.16.1 kernel.
* The reading of the Python sources (and of the numpy, scipy and netCDF4 calls
  in them), recorded definition by definition in the Model files.
* The axioms listed at the end. `vcheck` also reports as "library axioms" the
  constants of the standard library that come from opaque modules
  (`Rdefinitions.RbaseSymbolsImpl.*`, `ssr.ssrunder.Under_rel.*`) and
  `Classical_Prop.classic`; they are in the loaded standard library, but
  `Print Assumptions` lists none of them for our theorems.

No axiom, parameter, admitted proof, functor, module type or kernel switch
occurs in `rocq/theories`.

## Seeded faults

`tools/mutate.py` applies one edit to a Model file in a scratch copy, rebuilds
what depends on it with every proof attempted separately, and records in
`seeded/LOG.jsonl` which theorems no longer hold up: those whose own proof
breaks, and those whose proof names a lemma that broke (found by name, so the
second kind is a heuristic). Theorems written or strengthened because an edit
survived are in `tightened`. Edits that only repair a finding break only the
`_refuted` theorem, and are marked "(finding)".

