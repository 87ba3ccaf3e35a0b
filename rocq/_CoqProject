-Q theories Verif
theories/Adopt/Examples.v
theories/Adopt/Facts.v
theories/Adopt/Model.v
theories/Adopt/Proofs.v
theories/Adopt/Props.v
theories/Adopt/Spec.v
theories/Aligned/Calls.v
theories/Aligned/Examples.v
theories/Aligned/History.v
theories/Aligned/Model.v
theories/Aligned/Proofs.v
theories/Aligned/Props.v
theories/Aligned/Spec.v
theories/Args/Examples.v
theories/Args/Facts.v
theories/Args/Model.v
theories/Args/Props.v
theories/Args/Spec.v
theories/Attrs/Examples.v
theories/Attrs/Facts.v
theories/Attrs/Model.v
theories/Attrs/Proofs.v
theories/Attrs/Props.v
theories/Attrs/Spec.v
theories/Base/Base.v
theories/Base/BaseProofs.v
theories/Builders/Examples.v
theories/Builders/Model.v
theories/Builders/Proofs.v
theories/Builders/Props.v
theories/Builders/Spec.v
theories/Chunks/Model.v
theories/Chunks/Proofs.v
theories/Chunks/Props.v
theories/Chunks/Spec.v
theories/ClassGen/Build.v
theories/ClassGen/Examples.v
theories/ClassGen/Facts.v
theories/ClassGen/Level.v
theories/ClassGen/Model.v
theories/ClassGen/Props.v
theories/ClassGen/Sig.v
theories/ClassGen/Spec.v
theories/ClassGen/Success.v
theories/ClassGen/Tower.v
theories/Columns/Chains.v
theories/Columns/Check.v
theories/Columns/Construct.v
theories/Columns/Examples.v
theories/Columns/Model.v
theories/Columns/Props.v
theories/Columns/Register.v
theories/Columns/Results.v
theories/Columns/Spec.v
theories/Compare/Examples.v
theories/Compare/Facts.v
theories/Compare/Model.v
theories/Compare/Proofs.v
theories/Compare/Props.v
theories/Compare/Spec.v
theories/Container/Model.v
theories/Container/Proofs.v
theories/Container/Props.v
theories/Container/Spec.v
theories/Decl/Examples.v
theories/Decl/Facts.v
theories/Decl/Model.v
theories/Decl/Proofs.v
theories/Decl/Props.v
theories/Decl/Spec.v
theories/Dims/Examples.v
theories/Dims/Model.v
theories/Dims/Proofs.v
theories/Dims/Props.v
theories/Dims/Spec.v
theories/Docval/Model.v
theories/Docval/Proofs.v
theories/Docval/Props.v
theories/Docval/Spec.v
theories/Dtype/Examples.v
theories/Dtype/Model.v
theories/Dtype/Proofs.v
theories/Dtype/Props.v
theories/Dtype/Spec.v
theories/Equal/Examples.v
theories/Equal/Model.v
theories/Equal/Proofs.v
theories/Equal/Props.v
theories/Equal/Spec.v
theories/Errors/Examples.v
theories/Errors/Facts.v
theories/Errors/Model.v
theories/Errors/Props.v
theories/Errors/Spec.v
theories/Errors/Told.v
theories/Fields/Defs.v
theories/Fields/Examples.v
theories/Fields/Final.v
theories/Fields/Model.v
theories/Fields/Proofs.v
theories/Fields/Props.v
theories/Fields/Spec.v
theories/Frame/Examples.v
theories/Frame/From.v
theories/Frame/Model.v
theories/Frame/Proofs.v
theories/Frame/Props.v
theories/Frame/Round.v
theories/Frame/Spec.v
theories/Grow/Examples.v
theories/Grow/Heap.v
theories/Grow/History.v
theories/Grow/Model.v
theories/Grow/Proofs.v
theories/Grow/Props.v
theories/Grow/Shapes.v
theories/Grow/Spec.v
theories/H5data/Examples.v
theories/H5data/Fill.v
theories/H5data/Model.v
theories/H5data/Props.v
theories/H5data/Rows.v
theories/H5data/Spec.v
theories/H5data/Types.v
theories/H5io/Examples.v
theories/H5io/Fill.v
theories/H5io/Loads.v
theories/H5io/Model.v
theories/H5io/Modes.v
theories/H5io/Order.v
theories/H5io/Props.v
theories/H5io/Queue.v
theories/H5io/Spec.v
theories/H5io/Versions.v
theories/H5link/Examples.v
theories/H5link/Facts.v
theories/H5link/Model.v
theories/H5link/Paths.v
theories/H5link/Props.v
theories/H5link/Spec.v
theories/H5opts/Examples.v
theories/H5opts/Init.v
theories/H5opts/Model.v
theories/H5opts/Props.v
theories/H5opts/Spec.v
theories/H5opts/Writes.v
theories/H5tree/Common.v
theories/H5tree/Cycle.v
theories/H5tree/Examples.v
theories/H5tree/Model.v
theories/H5tree/Props.v
theories/H5tree/Read.v
theories/H5tree/Spec.v
theories/H5tree/Write.v
theories/Handles/Examples.v
theories/Handles/Facts.v
theories/Handles/Model.v
theories/Handles/Props.v
theories/Handles/Spec.v
theories/Handout/Examples.v
theories/Handout/GenFacts.v
theories/Handout/MapFacts.v
theories/Handout/Model.v
theories/Handout/Props.v
theories/Handout/Spec.v
theories/Handout/WorldFacts.v
theories/Herd/Exact.v
theories/Herd/Examples.v
theories/Herd/Join.v
theories/Herd/Model.v
theories/Herd/Proofs.v
theories/Herd/Props.v
theories/Herd/Spec.v
theories/Hier/Examples.v
theories/Hier/Join.v
theories/Hier/Model.v
theories/Hier/Names.v
theories/Hier/Props.v
theories/Hier/Spec.v
theories/Ids/Examples.v
theories/Ids/Model.v
theories/Ids/Proofs.v
theories/Ids/Props.v
theories/Ids/Spec.v
theories/LDict/Model.v
theories/LDict/Proofs.v
theories/LDict/Props.v
theories/LDict/Spec.v
theories/Links/Model.v
theories/Links/Proofs.v
theories/Links/Props.v
theories/Links/Spec.v
theories/Manager/Examples.v
theories/Manager/Mirror.v
theories/Manager/Model.v
theories/Manager/Proofs.v
theories/Manager/Props.v
theories/Manager/Rebuild.v
theories/Manager/Spec.v
theories/Monitor/Examples.v
theories/Monitor/Facts.v
theories/Monitor/Model.v
theories/Monitor/Proofs.v
theories/Monitor/Props.v
theories/Monitor/Spec.v
theories/Multi/Classes.v
theories/Multi/Examples.v
theories/Multi/Final.v
theories/Multi/Methods.v
theories/Multi/Model.v
theories/Multi/Objects.v
theories/Multi/Proofs.v
theories/Multi/Props.v
theories/Multi/Spec.v
theories/MultiMap/Examples.v
theories/MultiMap/Facts.v
theories/MultiMap/Model.v
theories/MultiMap/Props.v
theories/MultiMap/Spec.v
theories/NsCache/Conv.v
theories/NsCache/Ents.v
theories/NsCache/Examples.v
theories/NsCache/Incl.v
theories/NsCache/Model.v
theories/NsCache/Names.v
theories/NsCache/Props.v
theories/NsCache/Reload.v
theories/NsCache/Round.v
theories/NsCache/Spec.v
theories/NsCache/Told.v
theories/NsLoad/Model.v
theories/NsLoad/Proofs.v
theories/NsLoad/Props.v
theories/NsLoad/Spec.v
theories/Objmap/Again.v
theories/Objmap/Build.v
theories/Objmap/Examples.v
theories/Objmap/Model.v
theories/Objmap/Proofs.v
theories/Objmap/Props.v
theories/Objmap/Read.v
theories/Objmap/Spec.v
theories/Objmap/Tidy.v
theories/Override/Examples.v
theories/Override/Facts.v
theories/Override/Model.v
theories/Override/Proofs.v
theories/Override/Props.v
theories/Override/Spec.v
theories/Predef/Examples.v
theories/Predef/Facts.v
theories/Predef/Model.v
theories/Predef/Proofs.v
theories/Predef/Props.v
theories/Predef/Spec.v
theories/Predef/Targets.v
theories/Query/Examples.v
theories/Query/Facts.v
theories/Query/Model.v
theories/Query/Proofs.v
theories/Query/Props.v
theories/Query/Spec.v
theories/Ragged/Flatten.v
theories/Ragged/FlattenProofs.v
theories/Ragged/Model.v
theories/Ragged/Proofs.v
theories/Ragged/Props.v
theories/Ragged/Spec.v
theories/Refs/Attrs.v
theories/Refs/Examples.v
theories/Refs/Fill.v
theories/Refs/Hist.v
theories/Refs/Model.v
theories/Refs/Props.v
theories/Refs/Queue.v
theories/Refs/Spec.v
theories/Reread/Examples.v
theories/Reread/Facts.v
theories/Reread/Model.v
theories/Reread/Proofs.v
theories/Reread/Props.v
theories/Reread/Spec.v
theories/Rows/Examples.v
theories/Rows/Frames.v
theories/Rows/Model.v
theories/Rows/Objects.v
theories/Rows/Proofs.v
theories/Rows/Props.v
theories/Rows/Spec.v
theories/Session/Examples.v
theories/Session/Facts.v
theories/Session/Model.v
theories/Session/Proofs.v
theories/Session/Props.v
theories/Session/Spec.v
theories/SetIO/Examples.v
theories/SetIO/Facts.v
theories/SetIO/Model.v
theories/SetIO/Props.v
theories/SetIO/Spec.v
theories/Shape/Model.v
theories/Shape/Proofs.v
theories/Shape/Props.v
theories/Shape/Spec.v
theories/Show/Examples.v
theories/Show/Facts.v
theories/Show/Model.v
theories/Show/Proofs.v
theories/Show/Props.v
theories/Show/Spec.v
theories/Show/Texts.v
theories/Slicer/Examples.v
theories/Slicer/Model.v
theories/Slicer/Proofs.v
theories/Slicer/Props.v
theories/Slicer/Spec.v
theories/Sorted/Examples.v
theories/Sorted/Model.v
theories/Sorted/More.v
theories/Sorted/Proofs.v
theories/Sorted/Props.v
theories/Sorted/Spec.v
theories/Sparse/Examples.v
theories/Sparse/Model.v
theories/Sparse/Proofs.v
theories/Sparse/Props.v
theories/Sparse/Spec.v
theories/SpecCache/Copy.v
theories/SpecCache/Dtypes.v
theories/SpecCache/Examples.v
theories/SpecCache/Facts.v
theories/SpecCache/Model.v
theories/SpecCache/Props.v
theories/SpecCache/Round.v
theories/SpecCache/Spec.v
theories/SpecCat/Model.v
theories/SpecCat/Proofs.v
theories/SpecCat/Props.v
theories/SpecCat/Spec.v
theories/SpecCopy/Examples.v
theories/SpecCopy/Facts.v
theories/SpecCopy/Model.v
theories/SpecCopy/Props.v
theories/SpecDict/Attrs.v
theories/SpecDict/Examples.v
theories/SpecDict/Facts.v
theories/SpecDict/Groups.v
theories/SpecDict/Model.v
theories/SpecDict/Parts.v
theories/SpecDict/Props.v
theories/SpecDict/Spec.v
theories/SpecDict/Store.v
theories/SpecRes/Model.v
theories/SpecRes/Proofs.v
theories/SpecRes/Props.v
theories/SpecRes/Spec.v
theories/Subspec/Examples.v
theories/Subspec/Facts.v
theories/Subspec/Model.v
theories/Subspec/Props.v
theories/Subspec/Spec.v
theories/TabMap/Examples.v
theories/TabMap/Facts.v
theories/TabMap/Model.v
theories/TabMap/Props.v
theories/TabMap/Spec.v
theories/Table/Enum.v
theories/Table/EnumProofs.v
theories/Table/Model.v
theories/Table/Proofs.v
theories/Table/PropLemmas.v
theories/Table/PropProofs.v
theories/Table/Props.v
theories/Table/Region.v
theories/Table/RegionProofs.v
theories/Table/Spec.v
theories/Terms/Examples.v
theories/Terms/Model.v
theories/Terms/Proofs.v
theories/Terms/Props.v
theories/Terms/Spec.v
theories/Track/Examples.v
theories/Track/Facts.v
theories/Track/Model.v
theories/Track/Props.v
theories/Track/Spec.v
theories/TypeMap/Copy.v
theories/TypeMap/Examples.v
theories/TypeMap/Frame.v
theories/TypeMap/Maps.v
theories/TypeMap/Mirror.v
theories/TypeMap/Model.v
theories/TypeMap/Parent.v
theories/TypeMap/Props.v
theories/TypeMap/Spec.v
theories/TypeMap/Total.v
theories/Valid/Conform.v
theories/Valid/Examples.v
theories/Valid/Match.v
theories/Valid/Model.v
theories/Valid/Proofs.v
theories/Valid/Props.v
theories/Valid/Spec.v
theories/Writer/Builder.v
theories/Writer/Examples.v
theories/Writer/Model.v
theories/Writer/Proofs.v
theories/Writer/Props.v
theories/Writer/Spec.v
