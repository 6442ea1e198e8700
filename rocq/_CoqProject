-Q theories Verif

theories/Base.v
theories/BaseLemmas.v
theories/FloatModel.v
theories/StringModel.v
theories/ParamsModel.v
theories/RasterModel.v
theories/RasterSpec.v
theories/ListLemmas.v
theories/RasterEncProofs.v
theories/RasterDecProofs.v
theories/HeaderModel.v
theories/FloatLemmas.v
theories/HeaderSpec.v
theories/HeaderProofs.v
theories/GeometryProofs.v
theories/PageProofs.v
theories/RasterProperties.v
theories/StringProofs.v
theories/StringSpec.v
theories/StringProperties.v
theories/PpmModel.v
theories/PpmSpec.v
theories/PpmProofs.v
theories/PpmProperties.v
theories/PacmanExample.v
theories/ParamsSpec.v
theories/ParamsProofs.v
theories/ParamsProperties.v
theories/MapModel.v
theories/MapProofs.v
theories/IppModel.v
theories/IppSpec.v
theories/IppEncProofs.v
theories/IppDecProofs.v
theories/IppMsgProofs.v
theories/IppProperties.v
theories/JsonModel.v
theories/JsonProperties.v
theories/ArgModel.v
theories/ArgSpec.v
theories/ArgProperties.v
theories/PpmCmdSpec.v
theories/PpmCmdProperties.v
theories/SettingModel.v
theories/SettingProperties.v
theories/ConverterModel.v
theories/ConverterProperties.v
theories/JobModel.v
theories/JobProofs.v
theories/JobSummary.v
theories/JobProperties.v
theories/JobParamsProperties.v
theories/MediaSizeProperties.v
theories/RenderModel.v
theories/RenderProofs.v
theories/RenderProperties.v
theories/ScaleProperties.v
theories/CurlModel.v
theories/CurlSpec.v
theories/CurlProofs.v
theories/CurlLiveProofs.v
theories/CurlProperties.v
theories/DiscoveryModel.v
theories/DiscoverySpec.v
theories/DnsProofs.v
theories/RecordSpec.v
theories/DiscoveryProofs.v
theories/DiscoveryProperties.v
theories/MimeProperties.v
theories/PrinterModel.v
theories/PrinterSpec.v
theories/PrinterProperties.v
theories/SupplyProperties.v
theories/JsonSpec.v
theories/SettingsModel.v
theories/SettingsProofs.v
theories/SettingsProperties.v
theories/ClientModel.v
theories/ClientSpec.v
theories/ClientProperties.v
theories/OptionProofs.v
theories/PdfCmdModel.v
theories/PdfCmdSpec.v
theories/PdfCmdProperties.v
theories/JpegModel.v
theories/JpegProperties.v
theories/ShowProofs.v
theories/ShowProperties.v
theories/UploadModel.v
theories/UploadProperties.v
theories/DumpProofs.v
theories/DecodeModel.v
theories/DecodeProofs.v
theories/DateProofs.v
theories/DecodeProperties.v
theories/FormatProperties.v
theories/OutputModel.v
theories/OutputProperties.v
theories/InchProperties.v
theories/TotalProperties.v
theories/HelpModel.v
theories/HelpProperties.v
theories/FileModel.v
theories/FileProperties.v
theories/ClientCmdSpec.v
theories/ClientCmdProperties.v
theories/MessageSpec.v
theories/MessageProofs.v
theories/MessageProperties.v
theories/ContactModel.v
theories/ContactSpec.v
theories/ContactProperties.v
theories/PlaceModel.v
theories/PlaceProofs.v
theories/PlaceProperties.v
theories/HttpModel.v
theories/HttpSpec.v
theories/HttpProperties.v
theories/SayModel.v
theories/SaySpec.v
theories/SayProofs.v
theories/SayProperties.v
theories/ToolModel.v
theories/ToolProperties.v
theories/WireSpec.v
theories/WireProofs.v
theories/WireProperties.v
theories/PrintedSpec.v
theories/PrintedProofs.v
theories/PrintedProperties.v
theories/SavedModel.v
theories/SavedSpec.v
theories/SavedProperties.v
theories/TransModel.v
theories/TransSpec.v
theories/TransProperties.v
theories/ParserProperties.v
theories/CallsModel.v
theories/CallsSpec.v
theories/CallsProperties.v
theories/RaceModel.v
theories/RaceSpec.v
theories/RaceProperties.v
theories/SetSpec.v
theories/SetProperties.v
theories/NameProperties.v
theories/WarnModel.v
theories/WarnProofs.v
theories/ResponseSpec.v
theories/ResponseProperties.v
theories/SafeProperties.v
theories/EndProperties.v
theories/TightProperties.v
theories/PdfEndProperties.v
theories/ExampleProperties.v
theories/LateProperties.v
theories/HangProperties.v
theories/SplitProperties.v
theories/TellModel.v
theories/TellProperties.v
theories/DocumentProperties.v
theories/TraceModel.v
theories/TraceProperties.v
theories/OrderProperties.v
theories/NoiseProperties.v
theories/JoinProperties.v
theories/PlacesProperties.v
theories/WhereProperties.v
theories/ToldProperties.v
