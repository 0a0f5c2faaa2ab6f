-Q theories Verif
theories/Common.v
theories/CommonProofs.v
theories/TimeModel.v
theories/TimeSpec.v
theories/TimeProofs.v
theories/TimeHeapProofs.v
theories/IsoModel.v
theories/IsoSpec.v
theories/IsoProofs.v
theories/TimeProps.v
theories/VariableModel.v
theories/VariableSpec.v
theories/VariableProofs.v
theories/VariableInterpProofs.v
theories/VariableAtProofs.v
theories/VariableProps.v
theories/DepthModel.v
theories/DepthSpec.v
theories/DepthProofs.v
theories/DepthSigmaProofs.v
theories/DepthAtProofs.v
theories/DepthProps.v
theories/UGridModel.v
theories/UGridSpec.v
theories/UGridProofs.v
theories/UGridTopoProofs.v
theories/UGridGeomModel.v
theories/UGridGeomSpec.v
theories/UGridGeomProofs.v
theories/UGridLocProofs.v
theories/UGridInterpProofs.v
theories/UGridProps.v
theories/RGridModel.v
theories/RGridSpec.v
theories/RGridProofs.v
theories/RGridProps.v
theories/GridTypeModel.v
theories/GridTypeSpec.v
theories/GridTypeProofs.v
theories/GridTypeProps.v
theories/MaskModel.v
theories/MaskSpec.v
theories/MaskProofs.v
theories/MaskProps.v
theories/SGridModel.v
theories/SGridSpec.v
theories/SGridProofs.v
theories/SGridProps.v
theories/SGridInterpModel.v
theories/SGridInterpSpec.v
theories/SGridInterpProofs.v
theories/SGridInterpRun.v
theories/SGridInterpProps.v
theories/PointsModel.v
theories/PointsSpec.v
theories/PointsProofs.v
theories/PointsProps.v
theories/SearchModel.v
theories/SearchSpec.v
theories/SearchProofs.v
theories/SearchProps.v
theories/ChainModel.v
theories/ChainSpec.v
theories/ChainProofs.v
theories/ChainProps.v
theories/VerdatModel.v
theories/VerdatText.v
theories/VerdatSpec.v
theories/VerdatProofs.v
theories/VerdatProps.v
theories/RayModel.v
theories/RaySpec.v
theories/RayProofs.v
theories/RayProps.v
theories/VectorModel.v
theories/VectorProps.v
theories/ItemModel.v
theories/ItemProofs.v
theories/ItemProps.v
theories/SAttrModel.v
theories/SAttrSpec.v
theories/SAttrProofs.v
theories/SAttrParse.v
theories/SAttrProps.v
theories/SVarModel.v
theories/SVarSpec.v
theories/SVarProofs.v
theories/SVarProps.v
theories/UFileModel.v
theories/UFileSpec.v
theories/UFileProofs.v
theories/UFileProps.v
theories/VVarModel.v
theories/VVarSpec.v
theories/VVarProofs.v
theories/VVarProps.v
theories/TFileModel.v
theories/TFileSpec.v
theories/TFileProofs.v
theories/TFileProps.v
theories/LoadModel.v
theories/LoadSpec.v
theories/LoadProofs.v
theories/LoadProps.v
theories/DSaveModel.v
theories/DSaveSpec.v
theories/DSaveProofs.v
theories/DSaveProps.v
theories/NearModel.v
theories/NearSpec.v
theories/NearProofs.v
theories/NearProps.v
theories/SSaveModel.v
theories/SSaveSpec.v
theories/SSaveProofs.v
theories/SSaveProps.v
theories/EqModel.v
theories/EqSpec.v
theories/EqProofs.v
theories/EqProps.v
theories/BearModel.v
theories/BearSpec.v
theories/BearProofs.v
theories/BearProps.v
theories/RegridModel.v
theories/RegridSpec.v
theories/RegridProofs.v
theories/RegridProps.v
theories/VLoadModel.v
theories/VLoadSpec.v
theories/VLoadProofs.v
theories/VLoadProps.v
theories/ConstModel.v
theories/ConstSpec.v
theories/ConstProofs.v
theories/ConstProps.v
theories/SLoadModel.v
theories/SLoadSpec.v
theories/SLoadProofs.v
theories/SLoadProps.v
theories/NLoadModel.v
theories/NLoadSpec.v
theories/NLoadProofs.v
theories/NLoadProps.v
theories/PlotModel.v
theories/PlotSpec.v
theories/PlotProofs.v
theories/PlotProps.v
theories/SNameModel.v
theories/SNameSpec.v
theories/SNameProps.v
theories/DsetModel.v
theories/DsetProps.v
theories/WholeModel.v
theories/WholeSpec.v
theories/WholeProofs.v
theories/WholeProps.v
theories/DObjModel.v
theories/DObjSpec.v
theories/DObjProofs.v
theories/DObjProps.v
theories/CNameModel.v
theories/CNameSpec.v
theories/CNameProofs.v
theories/CNameProps.v
theories/TerrModel.v
theories/TerrSpec.v
theories/TerrProofs.v
theories/TerrProps.v
theories/SWholeModel.v
theories/SWholeSpec.v
theories/SWholeProofs.v
theories/SWholeProps.v
theories/RTerrModel.v
theories/RTerrSpec.v
theories/RTerrProofs.v
theories/RTerrProps.v
theories/InspModel.v
theories/InspSpec.v
theories/InspProofs.v
theories/InspProps.v
theories/CurrModel.v
theories/CurrSpec.v
theories/CurrProofs.v
theories/CurrProps.v
theories/FMeshModel.v
theories/FMeshSpec.v
theories/FMeshProofs.v
theories/FMeshProps.v
theories/UObjModel.v
theories/UObjSpec.v
theories/UObjProofs.v
theories/UObjProps.v
theories/FRectModel.v
theories/FRectSpec.v
theories/FRectProofs.v
theories/FRectProps.v
theories/FStagModel.v
theories/FStagSpec.v
theories/FStagRead.v
theories/FStagProofs.v
theories/FStagProps.v
theories/FRomsModel.v
theories/FRomsSpec.v
theories/FRomsProofs.v
theories/FRomsProps.v
theories/FFvcomModel.v
theories/FFvcomSpec.v
theories/FFvcomRead.v
theories/FFvcomProofs.v
theories/FFvcomProps.v
theories/FSgridModel.v
theories/FSgridSpec.v
theories/FSgridRead.v
theories/FSgridProofs.v
theories/FSgridProps.v
theories/WMaskSpec.v
theories/WMaskProofs.v
theories/WMaskProps.v
theories/FMaskProps.v
theories/FSaveModel.v
theories/FSaveSpec.v
theories/FSaveProofs.v
theories/FSaveProps.v
theories/InfoModel.v
theories/InfoSpec.v
theories/InfoProofs.v
theories/InfoProps.v
theories/ViewModel.v
theories/ViewSpec.v
theories/ViewProps.v
theories/FDiskModel.v
theories/FDiskSpec.v
theories/FDiskProps.v
theories/FVecModel.v
theories/FVecSpec.v
theories/FVecProofs.v
theories/FVecProps.v
theories/SMaskSpec.v
theories/SMaskProofs.v
theories/SMaskProps.v
theories/FSMaskProps.v
theories/RMaskProps.v
theories/FRMaskProps.v
theories/FFMaskSpec.v
theories/FFMaskProofs.v
theories/FFMaskProps.v
theories/AnyDepthSpec.v
theories/AnyDepthProofs.v
theories/AnyDepthProps.v
theories/UpSpec.v
theories/UpProofs.v
theories/UpProps.v
theories/SAnyDepthSpec.v
theories/SAnyDepthProofs.v
theories/SAnyDepthProps.v
theories/SUpProofs.v
theories/SUpProps.v
theories/UpWaterSpec.v
theories/UpWaterProofs.v
theories/UpWaterProps.v
theories/SUpWaterSpec.v
theories/SUpWaterProofs.v
theories/SUpWaterProps.v
theories/LayerSpec.v
theories/LayerProofs.v
theories/LayerProps.v
theories/LFileProps.v
theories/LMaskProps.v
theories/DedentProps.v
theories/LAboveProps.v
theories/LAnyProofs.v
theories/LAnyProps.v
