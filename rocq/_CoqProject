-Q theories Verif

theories/Bytes.v
theories/BytesFacts.v
theories/PageUtil.v
theories/SizeDef.v
theories/Slotted.v
theories/FixedArray.v
theories/PageLayout.v
theories/Spec.v
theories/PageSpec.v
theories/SlottedFacts.v
theories/SlottedOps.v
theories/SlottedOps2.v
theories/SlottedOps3.v
theories/SpecFacts.v
theories/FixedFacts.v
theories/FixedOps.v
theories/PageFacts.v
theories/PageReach.v
theories/PageExamples.v
theories/PageProps.v
theories/DataType.v
theories/TypeSpec.v
theories/TypeFacts.v
theories/SizeProps.v
theories/Datum.v
theories/Container.v
theories/Tuple.v
theories/PosCache.v
theories/ElementType.v
theories/BitFacts.v
theories/LayoutFacts.v
theories/ContainerFacts.v
theories/ContainerUpd.v
theories/ContainerMove.v
theories/DataFacts.v
theories/TypeSerde.v
theories/SerdeSpec.v
theories/TupleSpec.v
theories/StoreFacts.v
theories/ContainerSet.v
theories/ArrayFacts.v
theories/Expand.v
theories/Discard.v
theories/NestFacts.v
theories/NestOps.v
theories/ReadSpec.v
theories/ObsFacts.v
theories/PosCacheFacts.v
theories/AcceptFacts.v
theories/SerdeFacts.v
theories/DeserFacts.v
theories/IdentFacts.v
theories/AlikeFacts.v
theories/DataAt.v
theories/OpFacts.v
theories/TupleProps.v
theories/TupleExamples.v
theories/PosCacheSpec.v
theories/PosCacheProps.v
theories/PosCacheExamples.v
theories/SafeFacts.v
theories/SerdeProps.v
theories/IdentProps.v
theories/SelfSet.v
theories/SelfSetFacts.v
theories/SelfSetProps.v
theories/Numerals.v
theories/NumeralSpec.v
theories/NumeralProps.v
theories/Compare.v
theories/CompareSpec.v
theories/ValueFacts.v
theories/CompareFacts.v
theories/CompareProps.v
theories/Hash.v
theories/HashFacts.v
theories/HashProps.v
theories/MixedProps.v
theories/FnvProps.v
theories/HashFloatProps.v
theories/NestedProps.v
theories/Accessor.v
theories/AccessorProps.v
theories/FrameFacts.v
theories/PageElement.v
theories/PageRewrite.v
theories/PageElementFacts.v
theories/PageElementProps.v
theories/LocalProps.v
theories/SuccessSpec.v
theories/SuccessFacts.v
theories/SuccessProps.v
theories/ExpandLimitProps.v
theories/CopySpec.v
theories/CopyProps.v
theories/TypeHeap.v
theories/HeapSpec.v
theories/HeapFacts.v
theories/HeapProps.v
theories/TypeAlloc.v
theories/AllocFacts.v
theories/AllocProps.v
theories/TreeSpec.v
theories/TreeFacts.v
theories/TreeProps.v
theories/Defaults.v
theories/DefaultProps.v
theories/TableSpec.v
theories/TableFacts.v
theories/TableProps.v
theories/Print.v
theories/PrintSpec.v
theories/PrintFacts.v
theories/PrintProps.v
theories/SharedSpec.v
theories/SharedFacts.v
theories/SharedProps.v
theories/PageAlias.v
theories/PageAliasFacts.v
theories/PageAliasProps.v
theories/SameSpec.v
theories/SameFacts.v
theories/SameProps.v
theories/BoundedSpec.v
theories/BoundedProps.v
theories/BoundedTableSpec.v
theories/BoundedTableFacts.v
theories/BoundedTableProps.v
theories/HeaderProps.v
theories/ImageSpec.v
theories/ImageFacts.v
theories/ImageProps.v
theories/UnusedSpec.v
theories/UnusedFacts.v
theories/UnusedProps.v
theories/PlaceSpec.v
theories/PlaceFacts.v
theories/PlaceProps.v
theories/PageCopy.v
theories/PageCopyFacts.v
theories/PageCopyProps.v
theories/PageSelfProps.v
theories/CommuteProps.v
