-Q theories Verif
theories/Base.v
theories/BaseProofs.v
theories/BitsModel.v
theories/BitsSpec.v
theories/BitsSpec2.v
theories/BitsProofs.v
theories/BitsProofs2.v
theories/ToolsModel.v
theories/ToolsProofs.v
theories/StreamModel.v
theories/StreamSpec.v
theories/StreamProofs.v
theories/StreamProofs2.v
theories/OutputModel.v
theories/OutputProofs.v
theories/OutputProofs2.v
theories/PropertiesStream.v
theories/PropertiesBits.v
theories/DictModel.v
theories/DictSpec.v
theories/DictProofs.v
theories/PipeModel.v
theories/PipeSpec.v
theories/PipeProofs.v
theories/PipeProofs2.v
theories/FragmentModel.v
theories/FragmentSpec.v
theories/FragmentProofs.v
theories/PropertiesStream2.v
theories/Lit.v
theories/FieldModel.v
theories/FieldSpec.v
theories/FieldNames.v
theories/FieldProofs.v
theories/FieldProofs2.v
theories/FieldHist.v
theories/FieldProofs3.v
theories/FieldWeak.v
theories/FieldLazy.v
theories/FieldAnswers.v
theories/FieldEdit.v
theories/FieldSpec2.v
theories/FieldArrays.v
theories/FakeArrayProofs.v
theories/PropertiesFields.v
theories/PathModel.v
theories/PathSpec.v
theories/PathProofs.v
theories/GapModel.v
theories/GapSpec.v
theories/GapProofs.v
theories/StaticModel.v
theories/StaticSpec.v
theories/StaticProofs.v
theories/PropertiesFields2.v
theories/HuffModel.v
theories/HuffSpec.v
theories/HuffProofs.v
theories/DeflateModel.v
theories/DeflateSpec.v
theories/DeflateProofs.v
theories/DeflateProofs2.v
theories/PropertiesInflate.v
theories/TextModel.v
theories/TextSpec.v
theories/TextProofs.v
theories/PropertiesText.v
theories/FloatModel.v
theories/FloatProofs.v
theories/HumanModel.v
theories/HumanSpec.v
theories/HumanProofs.v
theories/HumanProofs2.v
theories/HumanProofs3.v
theories/HumanProofs4.v
theories/PrintModel.v
theories/PrintSpec.v
theories/PrintProofs.v
theories/PropertiesHuman.v
theories/RegexModel.v
theories/RegexSpec.v
theories/RegexProofs.v
theories/RegexProofs2.v
theories/RegexProofs3.v
theories/RegexProofs4.v
theories/RegexProofs5.v
theories/RegexLeaves.v
theories/RegexTextModel.v
theories/RegexTextProofs.v
theories/PatternModel.v
theories/PatternProofs.v
theories/PropertiesRegex.v
theories/VarintModel.v
theories/VarintSpec.v
theories/VarintProofs.v
theories/VarintProofs2.v
theories/VarintProofs3.v
theories/PropertiesNumbers.v
theories/GuessModel.v
theories/GuessSpec.v
theories/GuessProofs.v
theories/GuessProofs2.v
theories/PropertiesGuess.v
theories/CompressModel.v
theories/CompressSpec.v
theories/CompressProofs.v
theories/LimitModel.v
theories/PropertiesLimits.v
theories/SubfileModel.v
theories/SubfileSpec.v
theories/SubfileProofs.v
theories/PropertiesSubfile.v
theories/MetaModel.v
theories/MetaSpec.v
theories/MetaProofs.v
theories/MetaProofs2.v
theories/MetaProofs3.v
theories/MetaProofs4.v
theories/PropertiesMeta.v
theories/GifModel.v
theories/GifSpec.v
theories/GifProofs.v
theories/GifProofs2.v
theories/PropertiesGif.v
theories/EditModel.v
theories/EditSpec.v
theories/EditProofs.v
theories/EditProofs2.v
theories/EditProofs3.v
theories/EditProofs4.v
theories/EditProofs5.v
theories/EditProofs6.v
theories/EditProofs7.v
theories/PropertiesEdit.v
theories/OleModel.v
theories/OleSpec.v
theories/OleProofs.v
theories/PropertiesOle.v
theories/PropertiesCharset.v
theories/ValueModel.v
theories/ValueSpec.v
theories/ValueProofs.v
theories/PropertiesValues.v
theories/StripModel.v
theories/StripSpec.v
theories/StripProofs.v
theories/StripProofs2.v
theories/StripProofs3.v
theories/StripProofs4.v
theories/StripProofs5.v
theories/StripProofs6.v
theories/StripProofs7.v
theories/PropertiesStrip.v
theories/ChunkBase.v
theories/TorrentModel.v
theories/TorrentSpec.v
theories/TorrentProofs.v
theories/PropertiesTorrent.v
theories/TarModel.v
theories/TarSpec.v
theories/TarProofs.v
theories/PropertiesTar.v
theories/AsnModel.v
theories/AsnSpec.v
theories/AsnProofs.v
theories/PropertiesAsn.v
theories/TlvModel.v
theories/TlvSpec.v
theories/TlvProofs.v
theories/NumSpec.v
theories/NumRead.v
theories/RiffModel.v
theories/RiffSpec.v
theories/RiffProofs.v
theories/PropertiesRiff.v
theories/MkvModel.v
theories/MkvSpec.v
theories/MkvProofs.v
theories/PropertiesMkv.v
theories/BlockModel.v
theories/BlockSpec.v
theories/BlockProofs.v
theories/PropertiesBlock.v
theories/Mp4Model.v
theories/Mp4Spec.v
theories/Mp4Proofs.v
theories/PropertiesMp4.v
theories/GenModel.v
theories/GenSpec.v
theories/GenProofs.v
theories/GzipModel.v
theories/GzipSpec.v
theories/PropertiesGzip.v
theories/ItemSpec.v
theories/ItemProofs.v
theories/PngModel.v
theories/PngSpec.v
theories/PngProofs.v
theories/PropertiesPng.v
theories/ItemProofs2.v
theories/ZipModel.v
theories/ZipSpec.v
theories/ZipProofs.v
theories/PropertiesZip.v
theories/OggModel.v
theories/OggSpec.v
theories/OggProofs.v
theories/PropertiesOgg.v
theories/ArModel.v
theories/ArSpec.v
theories/PropertiesAr.v
theories/ExtractModel.v
theories/ExtractProofs.v
theories/BmpModel.v
theories/BmpSpec.v
theories/BmpProofs.v
theories/PropertiesBmp.v
theories/GifFileModel.v
theories/GifFileSpec.v
theories/GifFileProofs.v
theories/PropertiesGifFile.v
theories/MidiModel.v
theories/MidiSpec.v
theories/MidiProofs.v
theories/PropertiesMidi.v
theories/JpegModel.v
theories/JpegSpec.v
theories/JpegProofs.v
theories/PropertiesJpeg.v
theories/PropertiesJpeg2.v
theories/MpegModel.v
theories/MpegSpec.v
theories/MpegProofs.v
theories/MpegSafe.v
theories/MpegMeta.v
theories/PropertiesMpeg.v
theories/Id3Model.v
theories/Id3Spec.v
theories/Id3Proofs.v
theories/PropertiesId3.v
theories/RasterModel.v
theories/RasterSpec.v
theories/PropertiesRaster.v
theories/AuModel.v
theories/AuSpec.v
theories/PropertiesAu.v
theories/AiffModel.v
theories/AiffSpec.v
theories/AiffId3.v
theories/AiffProofs.v
theories/AiffMetaModel.v
theories/PropertiesAiff.v
theories/PropertiesAiffMeta.v
theories/RealModel.v
theories/RealSpec.v
theories/PropertiesReal.v
theories/RealMetaModel.v
theories/PropertiesRealMeta.v
theories/PrsPakModel.v
theories/PrsPakSpec.v
theories/PropertiesPrsPak.v
