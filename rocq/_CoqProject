-Q theories Verif
theories/Base/Prelude.v
theories/Base/ListLemmas.v
theories/Base/Order.v
theories/Mpi/CommModel.v
theories/Mpi/CommProofs.v
theories/Mpi/CutProofs.v
theories/Mpi/AlltoallvModel.v
theories/Mpi/AlltoallvSpec.v
theories/Mpi/AlltoallvProofs.v
theories/Mpi/AlltoallvProps.v
theories/Psort/MoveModel.v
theories/Psort/MoveProofs.v
theories/Psort/FetchProofs.v
theories/Psort/MoveSpec.v
theories/Psort/MoveFinal.v
theories/Psort/MoveProps.v
theories/Psort/SplitModel.v
theories/Psort/MedianProofs.v
theories/Psort/SplitProofs.v
theories/Psort/SortModel.v
theories/Psort/SortProofs.v
theories/Psort/SortSpec.v
theories/Psort/SortFinal.v
theories/Psort/SortProps.v
theories/Psort/MatchModel.v
theories/Psort/MatchSpec.v
theories/Psort/MatchProofs.v
theories/Psort/MatchFinal.v
theories/Psort/MatchProps.v
theories/Psort/UniqueModel.v
theories/Psort/UniqueProofs.v
theories/Psort/UniqueFinal.v
theories/Psort/UniqueProps.v
theories/Psort/ReduceModel.v
theories/Psort/ReduceSpec.v
theories/Psort/ReduceProofs.v
theories/Psort/ReduceFinal.v
theories/Psort/BincountProofs.v
theories/Psort/BincountFinal.v
theories/Psort/ReduceProps.v
theories/Mpi/DestProofs.v
theories/Tree/MergerModel.v
theories/Tree/MergerSpec.v
theories/Tree/MergerProofs.v
theories/Tree/MatchHalosProofs.v
theories/Tree/MergerProps.v
theories/Base/NdArray.v
theories/Mpi/GroupIndexModel.v
theories/Mpi/GroupIndexSpec.v
theories/Mpi/GroupIndexProofs.v
theories/Mpi/GroupIndexProps.v
theories/Mpi/GatherModel.v
theories/Mpi/GatherSpec.v
theories/Mpi/GatherProofs.v
theories/Mpi/UtilModel.v
theories/Mpi/UtilProofs.v
theories/Mpi/UtilProps.v
theories/Phdf5/AssignModel.v
theories/Phdf5/AssignProofs.v
theories/Phdf5/CollModel.v
theories/Phdf5/CollProofs.v
theories/Phdf5/MultiModel.v
theories/Phdf5/MultiSpec.v
theories/Phdf5/MultiProofs.v
theories/Phdf5/Phdf5Props.v
theories/Util/UMatchModel.v
theories/Util/UMatchProofs.v
theories/Util/RangesModel.v
theories/Util/RangesSpec.v
theories/Util/RangesProofs.v
theories/Util/MatchRangesProps.v
theories/Peano/PeanoModel.v
theories/Peano/PeanoCurve.v
theories/Peano/PeanoProofs.v
theories/Peano/PeanoProps.v
theories/Peano/CPeanoModel.v
theories/Peano/CPeanoProofs.v
theories/Peano/CPeanoProps.v
theories/Binary/BinModel.v
theories/Binary/NameProofs.v
theories/Binary/LayoutProofs.v
theories/Binary/EndianProofs.v
theories/Binary/FortranProofs.v
theories/Binary/UsedProofs.v
theories/Binary/CacheModel.v
theories/Binary/CacheProofs.v
theories/Binary/BinaryFinal.v
theories/Binary/BinaryProps.v
theories/Index/IndexModel.v
theories/Index/IndexSpec.v
theories/Index/LinkProofs.v
theories/Index/ForestProofs.v
theories/Index/WalkProofs.v
theories/Index/EndsProofs.v
theories/Index/DfiFinal.v
theories/Index/DfiMain.v
theories/Index/MassProofs.v
theories/Index/MassFinal.v
theories/Index/MainProgProofs.v
theories/Index/IndexProps.v
theories/Binary/TreeProofs.v
theories/Formats/ReaderModel.v
theories/Formats/FileSpec.v
theories/Formats/ReaderProofs.v
theories/Formats/RunProofs.v
theories/Formats/CatSpec.v
theories/Formats/CatProofs.v
theories/Formats/SnapProofs.v
theories/Formats/CatFinal.v
theories/Formats/GadgetSpec.v
theories/Formats/GadgetProofs.v
theories/Formats/GadgetFinal.v
theories/Formats/RefuseProofs.v
theories/Formats/FormatsProps.v
theories/Formats/StructModel.v
theories/Formats/StructSpec.v
theories/Formats/StructLayout.v
theories/Formats/StructProofs.v
theories/Formats/StructFinal.v
theories/Formats/StructOpen.v
theories/Formats/StructTop.v
theories/Formats/StructWitness.v
theories/Formats/StructProps.v
theories/Snap/SanityModel.v
theories/Snap/SanitySpec.v
theories/Snap/SanityProofs.v
theories/Snap/SubTabProofs.v
theories/Snap/SanityProps.v
theories/Snap/ReadModel.v
theories/Snap/ReadSpec.v
theories/Snap/CellsProofs.v
theories/Snap/RangeProofs.v
theories/Snap/FofProofs.v
theories/Snap/FofFinal.v
theories/Snap/ReadFinal.v
theories/Snap/ReadProps.v
theories/Hash/HashModel.v
theories/Hash/HashSpec.v
theories/Hash/HashProofs.v
theories/Hash/HashFinal.v
theories/Hash/HashProps.v
theories/Multi/MultiModel.v
theories/Multi/MultiSpec.v
theories/Multi/MultiProofs.v
theories/Multi/MultiProps.v
theories/Multi/GroupCatModel.v
theories/Multi/GroupCatSpec.v
theories/Multi/GroupCatProofs.v
theories/Multi/GroupCatFinal.v
theories/Multi/GroupCatProps.v
theories/Text/StrModel.v
theories/Text/StrSpec.v
theories/Text/StrProofs.v
theories/Text/EagleModel.v
theories/Text/EagleSpec.v
theories/Text/EagleProofs.v
theories/Text/EagleFinal.v
theories/Text/EagleProps.v
theories/Sql/SqlModel.v
theories/Sql/SqlSpec.v
theories/Sql/SqlProofs.v
theories/Sql/TreesModel.v
theories/Sql/TreesProofs.v
theories/Sql/SqlProps.v
theories/Swift/SwiftModel.v
theories/Swift/SwiftSpec.v
theories/Swift/SwiftProofs.v
theories/Swift/SwiftFinal.v
theories/Swift/SwiftProps.v
theories/Swift/OpenModel.v
theories/Swift/OpenSpec.v
theories/Swift/OpenProofs.v
theories/Swift/OpenFinal.v
theories/Swift/OpenProps.v
theories/Text/FmtModel.v
theories/Text/FmtSpec.v
theories/Text/FmtProofs.v
theories/Text/FmtStages.v
theories/Text/FileNrModel.v
theories/Text/FileNrSpec.v
theories/Text/FileNrProofs.v
theories/Text/FmtPos.v
theories/Text/FmtFinal.v
theories/Text/FmtProps.v
theories/Fortran/SortModel.v
theories/Fortran/SortProofs.v
theories/Fortran/SortProps.v
theories/Fortran/RegionModel.v
theories/Fortran/RegionSpec.v
theories/Fortran/ReadPartProofs.v
theories/Fortran/RegionProofs.v
theories/Fortran/RegionFinal.v
theories/Fortran/RegionProps.v
theories/Fortran/FofModel.v
theories/Fortran/FofSpec.v
theories/Fortran/MatchProofs.v
theories/Fortran/FofFinal.v
theories/Fortran/FofProps.v
theories/Fortran/GroupTabModel.v
theories/Fortran/GroupTabSpec.v
theories/Fortran/GroupTabProofs.v
theories/Fortran/ReadFileProofs.v
theories/Fortran/GroupTabFinal.v
theories/Fortran/GroupTabProps.v
theories/Fortran/VolumeModel.v
theories/Fortran/VolumeSpec.v
theories/Fortran/VolumeProofs.v
theories/Fortran/VolumeFloat.v
theories/Fortran/VolumeProps.v
theories/Binary/Hdf5Model.v
theories/Binary/Hdf5Spec.v
theories/Binary/Hdf5Proofs.v
theories/Binary/Hdf5Props.v
theories/Snap/OrderedModel.v
theories/Snap/OrderedSpec.v
theories/Snap/OrderedProofs.v
theories/Snap/OrderedFinal.v
theories/Snap/OrderedProps.v
theories/Snap/MillModel.v
theories/Snap/MillSpec.v
theories/Snap/MillProofs.v
theories/Snap/MillFinal.v
theories/Snap/MillFloat.v
theories/Snap/MillProps.v
theories/Phdf5/ApiModel.v
theories/Phdf5/ApiSpec.v
theories/Phdf5/ApiProofs.v
theories/Phdf5/ApiFinal.v
theories/Phdf5/ApiWrite.v
theories/Phdf5/ApiBack.v
theories/Phdf5/ApiProps.v
theories/Text/PresenceModel.v
theories/Text/PresenceSpec.v
theories/Text/PresenceProofs.v
theories/Text/PresenceFinal.v
theories/Text/PresenceRun.v
theories/Text/PresenceProps.v
theories/Text/PathModel.v
theories/Text/PathSpec.v
theories/Text/PathProofs.v
theories/Text/PathProps.v
theories/Peano/CoordsModel.v
theories/Peano/CoordsSpec.v
theories/Peano/CoordsProofs.v
theories/Peano/CoordsFinal.v
theories/Peano/CoordsProps.v
theories/Phdf5/DcplModel.v
theories/Phdf5/DcplProofs.v
theories/Phdf5/DcplProps.v
theories/Snap/SnapCheckModel.v
theories/Snap/SnapCheckProofs.v
theories/Snap/SnapCheckProps.v
theories/Idl/NumberProofs.v
theories/Idl/LibModel.v
theories/Idl/LibSpec.v
theories/Idl/StdioProofs.v
theories/Idl/TabProofs.v
theories/Idl/TabFinal.v
theories/Idl/TabProps.v
theories/Idl/SnapSpec.v
theories/Idl/SnapProofs.v
theories/Idl/HashProofs.v
theories/Idl/CellProofs.v
theories/Idl/HashFinal.v
theories/Idl/HashProps.v
theories/Idl/GroupSpec.v
theories/Idl/GroupProofs.v
theories/Idl/MatchProofs.v
theories/Idl/CentreProofs.v
theories/Idl/GroupFinal.v
theories/Idl/GroupProps.v
theories/Idl/SphereSpec.v
theories/Idl/SphereProofs.v
theories/Idl/SphereFinal.v
theories/Idl/SphereProps.v
theories/Idl/ProgModel.v
theories/Idl/ProgSpec.v
theories/Idl/ProgProofs.v
theories/Idl/ProgFinal.v
theories/Idl/ProgCases.v
theories/Idl/ProgProps.v
theories/Idl/ProfModel.v
theories/Idl/ProfSpec.v
theories/Idl/ProfProofs.v
theories/Idl/ProfFinal.v
theories/Idl/ProfUnique.v
theories/Idl/ProfCases.v
theories/Idl/ProfProps.v
theories/Idl/NfwModel.v
theories/Idl/NfwSpec.v
theories/Idl/NfwFinal.v
theories/Idl/NfwProps.v
theories/Idl/DensModel.v
theories/Idl/DensSpec.v
theories/Idl/DensFinal.v
theories/Idl/DensCases.v
theories/Idl/DensProps.v
theories/H5w/H5wModel.v
theories/H5w/H5wSpec.v
theories/H5w/H5wTable.v
theories/H5w/H5wFiles.v
theories/H5w/H5wCases.v
theories/H5w/FilesProps.v
theories/H5w/H5wArray.v
theories/H5w/H5wPath.v
theories/H5w/H5wHeap.v
theories/H5w/H5wCache.v
theories/H5w/H5wRead.v
theories/H5w/ReadProps.v
theories/H5w/H5wView.v
theories/H5w/H5wGroup.v
theories/H5w/GroupProps.v
theories/H5w/H5wWrite.v
theories/H5w/H5wPart.v
theories/H5w/H5wTrip.v
theories/H5w/WriteProps.v
theories/H5w/H5wAttrSpec.v
theories/H5w/H5wAttr.v
theories/H5w/AttrProps.v
theories/H5w/H5wInfo.v
theories/H5w/InfoProps.v
theories/H5w/TestExtendModel.v
theories/H5w/TestExtendSpec.v
theories/H5w/TestExtendFinal.v
theories/H5w/TestExtendProps.v
theories/Script/FofPlotModel.v
theories/Script/FofPlotSpec.v
theories/Script/FofPlotFinal.v
theories/Script/FofPlotProps.v
theories/Script/CheckUnitsModel.v
theories/Script/CheckUnitsSpec.v
theories/Script/CheckUnitsAlg.v
theories/Script/CheckUnitsFinal.v
theories/Script/CheckUnitsProps.v
theories/Script/MillUnitsModel.v
theories/Script/MillUnitsSpec.v
theories/Script/MillUnitsFinal.v
theories/Script/MillUnitsProps.v
theories/Script/SubListModel.v
theories/Script/SubListSpec.v
theories/Script/SubListFinal.v
theories/Script/SubListWhole.v
theories/Script/SubListProps.v
theories/Snap/RegionPyModel.v
theories/Snap/RegionPySpec.v
theories/Snap/RegionPyFinal.v
theories/Snap/RegionPyProps.v
theories/Mill2/SnapModel.v
theories/Mill2/SnapSpec.v
theories/Mill2/SnapFinal.v
theories/Mill2/SnapCFinal.v
theories/Mill2/SnapProps.v
theories/Pro/ProModel.v
theories/Pro/ProSpec.v
theories/Pro/NameProofs.v
theories/Pro/ProProofs.v
theories/Pro/SingleProofs.v
theories/Pro/ProFinal.v
theories/Pro/ProProps.v
theories/Pro/MultiModel.v
theories/Pro/MultiSpec.v
theories/Pro/MultiProofs.v
theories/Pro/PotProofs.v
theories/Pro/MultiProps.v
theories/Pro/PowerModel.v
theories/Pro/PowerSpec.v
theories/Pro/PowerProofs.v
theories/Pro/PowerFinal.v
theories/Pro/PowerProps.v
theories/Script/RvmaxModel.v
theories/Script/RvmaxSpec.v
theories/Script/RvmaxFinal.v
theories/Script/RvmaxProps.v
theories/Mr7/Mr7Model.v
theories/Mr7/Mr7Spec.v
theories/Mr7/Mr7Proofs.v
theories/Mr7/Mr7Final.v
theories/Mr7/Mr7Props.v
theories/Mr7/Mr7PyModel.v
theories/Mr7/Mr7PySpec.v
theories/Mr7/Mr7PyFinal.v
theories/Mr7/Mr7PyProps.v
theories/Mpi/ErrchkModel.v
theories/Mpi/ErrchkSpec.v
theories/Mpi/ErrchkFinal.v
theories/Mpi/ErrchkProps.v
