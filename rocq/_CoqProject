-Q theories Verif
theories/BoxProofs.v
theories/BoxSpec.v
theories/BuildModel.v
theories/BuildProofs.v
theories/BuildProps.v
theories/BuildSpec.v
theories/CityGridProofs.v
theories/CityModel.v
theories/CityProofs.v
theories/CityProps.v
theories/CitySpec.v
theories/ClassProps.v
theories/ClockModel.v
theories/ClockProps.v
theories/CollideModel.v
theories/CollideProofs.v
theories/CollideProps.v
theories/CollideSpec.v
theories/ColorBytes.v
theories/ColorJoinProps.v
theories/ColorLut.v
theories/ColorModel.v
theories/ColorMore.v
theories/ColorProofs.v
theories/ColorProps.v
theories/ColorSpec.v
theories/ComcatModel.v
theories/ComcatProofs.v
theories/ComcatProps.v
theories/ComcatSpec.v
theories/CompassModel.v
theories/CompassProofs.v
theories/CompassProps.v
theories/CompassSpec.v
theories/CopyHistProofs.v
theories/CopyModel.v
theories/CopyProofs.v
theories/CopyProps.v
theories/CopySendProofs.v
theories/CopySpec.v
theories/CopyStepProofs.v
theories/CountModel.v
theories/CountProps.v
theories/CoverProofs.v
theories/DepthProps.v
theories/DipProofs.v
theories/DipProps.v
theories/DistModel.v
theories/DistProps.v
theories/DistSpec.v
theories/EcefProofs.v
theories/EcefProps.v
theories/EdgeDistProps.v
theories/EdgeProofs.v
theories/EdgeProps.v
theories/EdgeSizeProofs.v
theories/EdgeSizeProps.v
theories/ElapsedModel.v
theories/ElapsedProofs.v
theories/ElapsedSpec.v
theories/EmailModel.v
theories/EmailProofs.v
theories/EmailProps.v
theories/EmailSpec.v
theories/EquatorProofs.v
theories/EventProps.v
theories/FactoryModel.v
theories/FactoryProofs.v
theories/FactoryProps.v
theories/FactorySpec.v
theories/FloatBase.v
theories/FloatEval.v
theories/FrameProps.v
theories/FsModel.v
theories/FsProofs.v
theories/FsSpec.v
theories/FtpModel.v
theories/FtpProofs.v
theories/FtpProps.v
theories/FtpSendProofs.v
theories/FtpSpec.v
theories/Gc2EndsProps.v
theories/Gc2Model.v
theories/Gc2Proofs.v
theories/Gc2Props.v
theories/Gc2Spec.v
theories/Gc2TraceProofs.v
theories/Gc2TraceProps.v
theories/GeoModel.v
theories/GeoProofs.v
theories/GeoProps.v
theories/GeoSpec.v
theories/GeoTrig.v
theories/GeonamesModel.v
theories/GeonamesProps.v
theories/GeonamesSpec.v
theories/GetModel.v
theories/GetProofs.v
theories/GetProps.v
theories/GetSpec.v
theories/GetTreeProofs.v
theories/HdfBaseProofs.v
theories/HdfModel.v
theories/HdfMoreProofs.v
theories/HdfProofs.v
theories/HdfProps.v
theories/HdfSpec.v
theories/HistoricModel.v
theories/HistoricProofs.v
theories/HistoricSpec.v
theories/JsonModel.v
theories/LabelModel.v
theories/LabelProps.v
theories/LonProps.v
theories/MapModel.v
theories/MapProps.v
theories/MapSpec.v
theories/MeshProps.v
theories/MiddleModel.v
theories/MiddleProps.v
theories/MiddleSpec.v
theories/MimeModel.v
theories/MimeProofs.v
theories/MimeProps.v
theories/MimeSpec.v
theories/NpModel.v
theories/NpProofs.v
theories/OriginModel.v
theories/OriginProofs.v
theories/OriginProps.v
theories/OriginSpec.v
theories/PackLineProofs.v
theories/PackModel.v
theories/PackMoreProps.v
theories/PackProofs.v
theories/PackProps.v
theories/PackSpec.v
theories/PaletteModel.v
theories/PaletteProofs.v
theories/PaletteProps.v
theories/PaletteSpec.v
theories/PathProofs.v
theories/PdlModel.v
theories/PdlProofs.v
theories/PdlProps.v
theories/PdlSpec.v
theories/PlaneModel.v
theories/PlaneProps.v
theories/PlaneSpec.v
theories/PlotModel.v
theories/PlotProps.v
theories/PointProps.v
theories/PointSpec.v
theories/PolyModel.v
theories/PolyProofs.v
theories/PolyProps.v
theories/PolySpec.v
theories/PrintModel.v
theories/PrintProps.v
theories/PutModel.v
theories/PutProps.v
theories/PutSpec.v
theories/PyBase.v
theories/PyStr.v
theories/QuadProofs.v
theories/QuadProps.v
theories/RasterModel.v
theories/RasterProps.v
theories/RasterSpec.v
theories/ReadProofs.v
theories/ReleaseModel.v
theories/ReleaseProps.v
theories/RoundModel.v
theories/RoundProofs.v
theories/RoundProps.v
theories/RoundSpec.v
theories/RuptModel.v
theories/RuptProofs.v
theories/RuptProps.v
theories/RuptSpec.v
theories/ScaleModel.v
theories/ScaleProofs.v
theories/ScaleProps.v
theories/ScaleSpec.v
theories/ScpModel.v
theories/ScpProofs.v
theories/ScpProps.v
theories/ScpSpec.v
theories/ScpTreeProofs.v
theories/SecureCancelProofs.v
theories/SecureModel.v
theories/SecureProofs.v
theories/SecureProps.v
theories/SecureSendProofs.v
theories/SecureSpec.v
theories/SelfModel.v
theories/SelfProps.v
theories/SelfSpec.v
theories/SenderModel.v
theories/SenderProofs.v
theories/SenderProps.v
theories/ShakeMoreProofs.v
theories/ShakeProofs.v
theories/ShakeProps.v
theories/ShakeSpec.v
theories/SheetModel.v
theories/SheetProps.v
theories/ShellProofs.v
theories/SizeModel.v
theories/SizeProofs.v
theories/SizeProps.v
theories/SizeSpec.v
theories/SlipModel.v
theories/SlipProps.v
theories/SlipSpec.v
theories/SlopeProofs.v
theories/SourceProps.v
theories/SphereProofs.v
theories/SphereProps.v
theories/TableModel.v
theories/TableProofs.v
theories/TableProps.v
theories/TableSpec.v
theories/TextModel.v
theories/TextProofs.v
theories/TextProps.v
theories/TextSpec.v
theories/TightProps.v
theories/TimeProps.v
theories/TzdataModel.v
theories/TzdataProofs.v
theories/TzdataProps.v
theories/TzdataRunProofs.v
theories/TzdataSpec.v
theories/VecModel.v
theories/VecProofs.v
theories/VecProps.v
theories/VersionKeyProps.v
theories/VersionModel.v
theories/VersionProofs.v
theories/VersionProps.v
theories/VersionSpec.v
theories/WriteModel.v
theories/WriteProofs.v
theories/WriteProps.v
theories/WriteSpec.v
theories/ZoneModel.v
theories/ZoneProofs.v
theories/ZoneProps.v
theories/ZoneSpec.v
