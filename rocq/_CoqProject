-Q theories Verif
theories/Base.v
theories/DateModel.v
theories/DateSpec.v
theories/DateProofs.v
theories/DateProofs2.v
theories/DateProofs3.v
theories/DateProps.v
theories/PackModel.v
theories/PackProps.v
theories/HashModel.v
theories/FileModel.v
theories/FileLemmas.v
theories/FileScan.v
theories/FileInv.v
theories/FileDir.v
theories/FileLook.v
theories/FileRead.v
theories/FileAlloc.v
theories/FileBin.v
theories/FileSlot.v
theories/FileUpd.v
theories/FileStep.v
theories/FileWrite.v
theories/FileExist.v
theories/FileOps.v
theories/FileDel.v
theories/FileRen.v
theories/FileCount.v
theories/FileCat.v
theories/FileSpec.v
theories/FileHist.v
theories/FileHistSpec.v
theories/FileProps.v
theories/FileRefute.v
theories/SpaceProps.v
theories/ArrayLib.v
theories/RepeatModel.v
theories/RepeatProofs.v
theories/RepeatProps.v
theories/AggModel.v
theories/AggProofs.v
theories/AggProps.v
theories/RegStoreModel.v
theories/RegStoreProofs.v
theories/RegStoreProps.v
theories/IrregModel.v
theories/IrregProofs.v
theories/IrregProps.v
theories/BlockModel.v
theories/BlockSpec.v
theories/BlockProofs.v
theories/BlockProps.v
theories/CStr.v
theories/TextSpec.v
theories/CStrProofs.v
theories/DateTextModel.v
theories/TimeTextProps.v
theories/DateTextProps.v
theories/IntervalModel.v
theories/IntervalSpec.v
theories/IntervalProps.v
theories/PathModel.v
theories/PathSpec.v
theories/PathProofs.v
theories/PathProps.v
theories/HashProps.v
theories/FPartModel.v
theories/FPartSpec.v
theories/FPartProps.v
theories/CollProps.v
theories/TextModel.v
theories/TextProps.v
theories/DateNeg.v
theories/RangeProps.v
theories/HdrModel.v
theories/HdrProps.v
theories/BufModel.v
theories/BufProps.v
theories/OffsetProps.v
theories/LockModel.v
theories/LockProps.v
theories/LockLost.v
theories/LockRefute.v
theories/AllocModel.v
theories/AllocProofs.v
theories/AllocProofs2.v
theories/AllocProps.v
theories/AllocRefute.v
theories/InstantProps.v
theories/SqueezeModel.v
theories/SqueezeSpec.v
theories/SqueezeProofs.v
theories/SqueezeProps.v
theories/SqueezeRefute.v
theories/AliasModel.v
theories/AliasSpec.v
theories/AliasProofs.v
theories/AliasLook.v
theories/AliasIns.v
theories/AliasLinks.v
theories/AliasHist.v
theories/AliasDel.v
theories/AliasProps.v
theories/AliasRefute.v
theories/SeriesModel.v
theories/SeriesProofs.v
theories/SeriesSpec.v
theories/SeriesHist.v
theories/SeriesGrid.v
theories/SeriesCal.v
theories/SeriesProps.v
theories/CatModel.v
theories/CatSpec.v
theories/CatProofs.v
theories/CatScan.v
theories/CatProps.v
theories/CatRefute.v
theories/CatColl.v
theories/IrrSerModel.v
theories/IrrSerSpec.v
theories/IrrSerProofs.v
theories/IrrSerBlock.v
theories/IrrSerLoop.v
theories/IrrSerStore.v
theories/IrrSerRead.v
theories/IrrSerProps.v
theories/PdModel.v
theories/PdSpec.v
theories/PdProofs.v
theories/PdLoop.v
theories/PdLabel.v
theories/PdRep.v
theories/PdRead.v
theories/PdProps.v
theories/TrimModel.v
theories/TrimSpec.v
theories/TrimProofs.v
theories/TrimClock.v
theories/TrimProps.v
theories/HecModel.v
theories/HecSpec.v
theories/HecProofs.v
theories/HecProps.v
theories/LocModel.v
theories/LocSpec.v
theories/LocProps.v
theories/B64Model.v
theories/B64Spec.v
theories/B64Proofs.v
theories/B64Props.v
theories/DelimModel.v
theories/DelimSpec.v
theories/DelimProofs.v
theories/DelimProps.v
theories/SortSpec.v
theories/SortModel.v
theories/SortProofs.v
theories/SortMerge.v
theories/CatSortModel.v
theories/CatSortSpec.v
theories/CatSortProofs.v
theories/CatSortLines.v
theories/CatSortRead.v
theories/CatSortProps.v
theories/CatSortRefute.v
theories/GridModel.v
theories/GridSpec.v
theories/GridProofs.v
theories/GridProps.v
theories/GridHec.v
theories/CopyModel.v
theories/CopyProofs.v
theories/CopySpec.v
theories/CopyProps.v
theories/CopyRefute.v
theories/WhatModel.v
theories/WhatSpec.v
theories/WhatProps.v
theories/WhatRefute.v
theories/FileExamples.v
theories/CopySeries.v
theories/ValidModel.v
theories/ValidSpec.v
theories/ValidProps.v
theories/ValidRefute.v
theories/PdHeadModel.v
theories/PdHeadProps.v
theories/NameModel.v
theories/NameProps.v
theories/SpatialProps.v
theories/IntConvModel.v
theories/IntConvProps.v
theories/CommasModel.v
theories/CommasProps.v
theories/GuardModel.v
theories/GuardProps.v
