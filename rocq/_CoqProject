-Q theories Verif
theories/AccessModel.v
theories/AccessProps.v
theories/AccessWriteProps.v
theories/ArchiveSaveProps.v
theories/ArchiveWriteProps.v
theories/AtomModel.v
theories/AtomProps.v
theories/AttributesModel.v
theories/AttributesProofs.v
theories/AttributesProps.v
theories/BareProps.v
theories/BareSpec.v
theories/BboxModel.v
theories/BboxProps.v
theories/CastModel.v
theories/CastProps.v
theories/CloneModel.v
theories/CloneProofs.v
theories/CloneProps.v
theories/ColorModel.v
theories/ColorProofs.v
theories/ColorProps.v
theories/Common.v
theories/CoordModel.v
theories/CoordProofs.v
theories/CoordProps.v
theories/CsvModel.v
theories/CsvProofs.v
theories/CsvProps.v
theories/DateTextModel.v
theories/DateTextProps.v
theories/DateTimeModel.v
theories/DateTimeProofs.v
theories/DateTimeProps.v
theories/DeflateProps.v
theories/DeflateRfc.v
theories/DiskModel.v
theories/DiskProps.v
theories/DomModel.v
theories/DomParsed.v
theories/DomProofs.v
theories/DomProofs2.v
theories/DomProps.v
theories/DomSpec.v
theories/DomTables.v
theories/DomVisit.v
theories/Doubles.v
theories/DoublesMore.v
theories/EntityModel.v
theories/EntityProofs.v
theories/EntityProps.v
theories/ExpatModel.v
theories/ExpatProps.v
theories/FeatureListModel.v
theories/FeatureListProofs.v
theories/FeatureListProps.v
theories/FeatureListRegions.v
theories/FieldProps.v
theories/FileModel.v
theories/FileProofs.v
theories/FileProps.v
theories/FilenameProps.v
theories/FindModel.v
theories/FindProps.v
theories/FromParseModel.v
theories/FromParseProps.v
theories/GeoModel.v
theories/GeoProps.v
theories/GetterProps.v
theories/GpxModel.v
theories/GpxProps.v
theories/HandlerModel.v
theories/HandlerProofs.v
theories/HandlerProofs2.v
theories/HandlerProofs3.v
theories/HandlerProps.v
theories/HandlerSpec.v
theories/HttpModel.v
theories/HttpProps.v
theories/IdModel.v
theories/IdProofs.v
theories/IdProps.v
theories/ImportModel.v
theories/ImportProps.v
theories/InlineProofs.v
theories/InlineProps.v
theories/InlineTotalProps.v
theories/KmlCacheModel.v
theories/KmlCacheProps.v
theories/KmzDiskModel.v
theories/KmzDiskProps.v
theories/KmzFileModel.v
theories/KmzFileProps.v
theories/KmzModel.v
theories/KmzProps.v
theories/LifeProps.v
theories/LinkCheckModel.v
theories/LinkCheckProps.v
theories/LinkFetchProps.v
theories/LocaleModel.v
theories/LocaleProps.v
theories/MapsModel.v
theories/MapsProps.v
theories/MergeModel.v
theories/MergeProofs.v
theories/MergeProps.v
theories/NamespaceModel.v
theories/NamespaceProps.v
theories/NetCacheModel.v
theories/NetCacheProofs.v
theories/NetCacheProps.v
theories/NsModel.v
theories/NsProps.v
theories/NsSpec.v
theories/NumberDomProps.v
theories/NumberModel.v
theories/NumberProofs.v
theories/NumberProps.v
theories/NumberText.v
theories/OldPlaceProofs.v
theories/OldPlaceProps.v
theories/OldPlaceSpec.v
theories/OldSchemaModel.v
theories/OldSchemaProps.v
theories/ParentModel.v
theories/ParentProofs.v
theories/ParentProps.v
theories/PathModel.v
theories/PathProofs.v
theories/PathProps.v
theories/RegionLinkModel.v
theories/RegionLinkProps.v
theories/RemoteStyleProps.v
theories/Rounding.v
theories/SaveProps.v
theories/SaverModel.v
theories/SaverProps.v
theories/SerializerModel.v
theories/SerializerProofs.v
theories/SerializerProps.v
theories/ServicesModel.v
theories/ServicesProps.v
theories/SimplifyModel.v
theories/SimplifyProps.v
theories/SplitModel.v
theories/SplitProofs.v
theories/SplitProofs2.v
theories/SplitProofs3.v
theories/SplitProofs4.v
theories/SplitProofs5.v
theories/SplitProps.v
theories/SplitTotalProps.v
theories/StatsModel.v
theories/StatsProps.v
theories/StrMap.v
theories/StreamModel.v
theories/StreamProps.v
theories/StringsModel.v
theories/StringsProofs.v
theories/StringsProps.v
theories/StyleModel.v
theories/StylePlain.v
theories/StyleProofs.v
theories/StyleProps.v
theories/StyleSameProps.v
theories/StyleTwin.v
theories/TourModel.v
theories/TourProps.v
theories/TwiceProps.v
theories/UnzipModel.v
theories/UnzipProofs.v
theories/UnzipProofs2.v
theories/UnzipProps.v
theories/UpdateModel.v
theories/UpdateProofs.v
theories/UpdateProps.v
theories/UriModel.v
theories/UriProps.v
theories/UriRfc.v
theories/UriRfcProofs.v
theories/UriTextModel.v
theories/UriTextProps.v
theories/ViewModel.v
theories/ViewProps.v
theories/WholeUpdateModel.v
theories/WholeUpdateProofs.v
theories/WholeUpdateProps.v
theories/XmlSpec.v
theories/XmlSpecProofs.v
theories/XmlTree.v
theories/XsdFileModel.v
theories/XsdFileProofs.v
theories/XsdFileProps.v
theories/XsdModel.v
theories/XsdProofs.v
theories/XsdProps.v
theories/XsdTables.v
theories/XstModel.v
theories/XstProps.v
