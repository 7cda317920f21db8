-Q theories Verif
theories/Prelude.v
theories/GoVal.v
theories/BaseLemmas.v
theories/OrderedMapModel.v
theories/OrderedMapProofs.v
theories/P_OrderedMap.v
theories/FillModel.v
theories/FillProofs.v
theories/P_Fill.v
theories/ValidNameModel.v
theories/ValidNameProofs.v
theories/CdfRefModel.v
theories/CdfRefProofs.v
theories/P_CdfRef.v
theories/CdfWriterModel.v
theories/CdfReaderModel.v
theories/CdfCodec.v
theories/NameUse.v
theories/P_Names.v
theories/CdfHeader.v
theories/ArraySpec.v
theories/ArrayProofs.v
theories/CdfConvert.v
theories/CdfFile.v
theories/CdfFixed.v
theories/CdfSpec.v
theories/CdfStore.v
theories/CdfCalls.v
theories/CdfInv.v
theories/CdfRound.v
theories/CdfLayout.v
theories/CdfClose.v
theories/CdfVersion.v
theories/CdfExamples.v
theories/P_CdfRound.v
theories/P_CdfWriter.v
theories/CdfFormat.v
theories/CdfLocal.v
theories/CdfParse.v
theories/CdfConform.v
theories/CdfOpened.v
theories/CdfFormatEx.v
theories/P_CdfFormat.v
theories/SliceSpec.v
theories/CdfBounds.v
theories/CdfSlice.v
theories/CdfBox.v
theories/CdfRecord.v
theories/CdfMissing.v
theories/CdfSliceEx.v
theories/P_CdfSlice.v
theories/P_CdfRecord.v
theories/P_Dispatch.v
theories/DispatchModel.v
theories/H5Base.v
theories/H5ChecksumModel.v
theories/Lookup3Spec.v
theories/H5ChecksumProofs.v
theories/P_H5Checksum.v
theories/FilterSpec.v
theories/H5FilterModel.v
theories/H5FilterProofs.v
theories/P_H5Filters.v
theories/H5ConcModel.v
theories/H5PathModel.v
theories/H5RefModel.v
theories/H5RefProofs.v
theories/P_H5Ref.v
theories/ConcSpec.v
theories/H5ConcProofs.v
theories/P_H5Conc.v
theories/H5PathProofs.v
theories/PathSpec.v
theories/P_H5Path.v
theories/ChunkSpec.v
theories/H5LayoutModel.v
theories/H5ChunkProofs.v
theories/IndexProofs.v
theories/H5LayoutProofs.v
theories/H5LayoutRead.v
theories/P_H5Layout.v
theories/CdfTypes.v
theories/P_CdfTypes.v
theories/H5MetaRead.v
theories/H5MetaWrite.v
theories/H5MetaProofs.v
theories/MetaSpec.v
theories/P_H5Meta.v
theories/H5Value.v
theories/H5TypeRead.v
theories/TypeSpec.v
theories/H5TypeProofs.v
theories/H5DataProofs.v
theories/H5StoreProofs.v
theories/H5VarProofs.v
theories/P_H5Types.v
theories/H5FileWrite.v
theories/H5WriterModel.v
theories/WriterSpec.v
theories/H5WriterProofs.v
theories/P_H5Writer.v
theories/H5RecordModel.v
theories/RecordSpec.v
theories/H5RecordProofs.v
theories/H5IndexProofs.v
theories/H5SliceProofs.v
theories/H5RunProofs.v
theories/H5ChunkedProofs.v
theories/H5CallProofs.v
theories/P_H5Record.v
theories/H5FileRead.v
theories/H5AttrProofs.v
theories/H5ObjectProofs.v
theories/H5TreeProofs.v
theories/H5PlaceProofs.v
theories/H5HeapProofs.v
theories/FileSpec.v
theories/H5GoodProofs.v
theories/H5PrepareProofs.v
theories/H5SizeProofs.v
theories/H5WholeProofs.v
theories/H5ApiPath.v
theories/H5ApiProofs.v
theories/H5ApiValues.v
theories/H5FileProofs.v
theories/H5CallsProofs.v
theories/P_H5File.v
theories/P_H5FileEx.v
theories/H5LengthProofs.v
theories/P_H5Length.v
theories/TypeStrModel.v
theories/TypeStrSpec.v
theories/TypeStrProofs.v
theories/P_TypeStr.v
theories/H5DenseRead.v
theories/DenseSpec.v
theories/H5DenseProofs.v
theories/H5BTreeProofs.v
theories/H5SymbolProofs.v
theories/P_H5Dense.v
theories/ForeignSpec.v
theories/H5ForeignProofs.v
theories/H5ForeignTree.v
theories/H5ForeignOpen.v
theories/H5ForeignApi.v
theories/P_H5Foreign.v
theories/H5TypeText.v
theories/TypeTextProofs.v
theories/TypeTextSpec.v
theories/TypeTextGo.v
theories/H5ShapeSpec.v
theories/H5TypeTextProofs.v
theories/P_H5TypeText.v
theories/H5TypeTextAll.v
theories/ForeignTypeSpec.v
theories/H5ForeignType.v
theories/ForeignMsgSpec.v
theories/H5ForeignMsg.v
theories/P_H5ForeignType.v
theories/ForeignValueSpec.v
theories/H5ForeignValue.v
theories/ForeignDataSpec.v
theories/H5ForeignData.v
theories/H5ForeignVar.v
theories/P_H5ForeignValue.v
theories/ForeignAttrSpec.v
theories/H5ForeignAttr.v
theories/P_H5ForeignAttr.v
theories/H5PipeModel.v
theories/ForeignFilterSpec.v
theories/H5PipeProofs.v
theories/H5PipeVar.v
theories/P_H5ForeignFilter.v
theories/ForeignSliceSpec.v
theories/H5GetterModel.v
theories/H5GetterProofs.v
theories/P_H5Getter.v
theories/P_H5Composed.v
theories/FormatSpec.v
theories/H5ConfProofs.v
theories/H5ConfValue.v
theories/H5ConfGood.v
theories/H5ConfTree.v
theories/ConformSpec.v
theories/H5ConfFile.v
theories/P_H5Conform.v
theories/H5DimProofs.v
theories/LengthSpec.v
theories/H5AttrSeqProofs.v
theories/CdfEmpty.v
theories/CdfEmptySpec.v
theories/AttrTypeSpec.v
theories/H5AttrMapModel.v
theories/H5AttrTypeProofs.v
theories/P_H5AttrType.v
theories/ForeignLayoutSpec.v
theories/P_H5ForeignLayout.v
theories/ForeignExtSpec.v
theories/P_H5ForeignExt.v
theories/H5WrittenType.v
theories/WrittenTypeSpec.v
theories/P_H5WrittenType.v
theories/EmptyFillSpec.v
theories/H5EmptyFill.v
theories/P_H5EmptyFill.v
theories/CdfCut.v
theories/P_CdfCut.v
theories/EmptyFilterSpec.v
theories/H5EmptyFilter.v
theories/P_H5EmptyFilter.v
theories/H5Hostile.v
theories/HostileSpec.v
theories/P_H5Hostile.v
theories/CrashSpec.v
theories/CdfCrash.v
theories/P_CdfCrash.v
theories/CdfCrashSure.v
theories/CdfReadCrash.v
theories/P_CdfReadCrash.v
theories/P_CdfUnchecked.v
theories/P_H5Past.v
theories/P_CdfRecPast.v
theories/P_H5Scalar.v
theories/P_CdfScalar.v
theories/P_H5Root.v
