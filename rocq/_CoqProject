-Q theories Verif
theories/Base.v
theories/BaseFacts.v
theories/MachineModel.v
theories/HeaderModel.v
theories/HeaderSpec.v
theories/MachineProofs.v
theories/MachineProps.v
theories/HeaderProofs.v
theories/HeaderSafety.v
theories/HeaderProps.v
theories/DataAccessModel.v
theories/DataAccessSpec.v
theories/DataAccessProofs.v
theories/DataAccessScan.v
theories/DataAccessBlocks.v
theories/DataAccessProps.v
theories/FactsModel.v
theories/FactsSpec.v
theories/FactsProofs.v
theories/FactsProps.v
theories/FileAccessModel.v
theories/FileAccessSpec.v
theories/FileAccessProofs.v
theories/FileAccessProps.v
theories/IniModel.v
theories/IniSpec.v
theories/IniProofs.v
theories/IniFile.v
theories/IniProps.v
theories/StringModel.v
theories/StringSpec.v
theories/StringProofs.v
theories/StringSplit.v
theories/StringCodec.v
theories/StringFinal.v
theories/StringProps.v
theories/IdsModel.v
theories/IdsSpec.v
theories/IdsProofs.v
theories/IdsBytes.v
theories/IdsProps.v
theories/NativeModel.v
theories/NativeSpec.v
theories/NativeProofs.v
theories/NativeProps.v
theories/NativeTextModel.v
theories/NativeTextProps.v
theories/HriImageModel.v
theories/HriImageSpec.v
theories/HriImageProofs.v
theories/HriImageProps.v
theories/HriFloatModel.v
theories/HriFloatSpec.v
theories/HriFloatProofs.v
theories/HriFloatProps.v
theories/HriModel.v
theories/HriSpec.v
theories/HriProofs.v
theories/HriFile.v
theories/HriProps.v
theories/OmtpModel.v
theories/OmtpSpec.v
theories/OmtpProofs.v
theories/OmtpProps.v
theories/GeoModel.v
theories/GeoProps.v
theories/GeoFloat.v
theories/GeoFloatProps.v
theories/ToolModel.v
theories/ToolProps.v
theories/ToolRunProps.v
theories/StretchFloat.v
theories/StretchFloatProps.v
theories/ScanModel.v
theories/ProxyModel.v
theories/ProxyProps.v
theories/ProxyOpenProps.v
theories/SunModel.v
theories/SunProps.v
theories/PixModel.v
theories/PixProps.v
theories/GribModel.v
theories/GribProps.v
theories/GribHrv.v
theories/GribCopyProps.v
theories/GribReadProps.v
theories/GribOwnProps.v
theories/NcModel.v
theories/NcProps.v
theories/NcCopyProps.v
theories/LayoutModel.v
theories/LayoutSpec.v
theories/LayoutProofs.v
theories/LayoutFacts.v
theories/LayoutProps.v
theories/CalibModel.v
theories/CalibSpec.v
theories/CalibProofs.v
theories/CalibProps.v
theories/MsgModel.v
theories/MsgProps.v
theories/MsgTimeProps.v
theories/MsgCucProps.v
theories/Db1Model.v
theories/Db1Spec.v
theories/Db1Props.v
theories/Db1NcProps.v
theories/ConvModel.v
theories/ConvProps.v
theories/OmtpNcModel.v
theories/OmtpNcProps.v
theories/HriNcModel.v
theories/HriNcProps.v
theories/DumpModel.v
theories/DumpProps.v
theories/XritModel.v
theories/XritProps.v
theories/IdsToolModel.v
theories/IdsToolSpec.v
theories/IdsToolProps.v
theories/SysModel.v
theories/SysProps.v
theories/SysTreeModel.v
theories/SysTreeProps.v
theories/SysOwnModel.v
theories/SysOwnProps.v
theories/SubprocModel.v
theories/SubprocProps.v
theories/TermModel.v
theories/TermProps.v
theories/NcOpenProps.v
theories/IdsCopyModel.v
theories/IdsCopyProps.v
theories/SysIterModel.v
theories/SysIterProps.v
theories/SysScopeModel.v
theories/SysScopeProps.v
theories/ProgressModel.v
theories/ProgressProps.v
theories/TestRunModel.v
theories/TestRunProps.v
theories/TestAssertModel.v
theories/TestAssertProps.v
theories/MsatCmdModel.v
theories/MsatCmdProps.v
theories/NativeImageModel.v
theories/NativeImageProps.v
theories/Db1ImageModel.v
theories/Db1ImageProps.v
theories/SysTempModel.v
theories/SysTempProps.v
theories/XritCmdModel.v
theories/XritCmdProps.v
theories/SysDirModel.v
theories/SysDirProps.v
theories/TestStatsModel.v
theories/TestStatsProps.v
theories/CodeTextModel.v
theories/CodeTextProps.v
theories/TestMarksModel.v
theories/TestMarksProps.v
theories/ViewModel.v
theories/ViewProps.v
theories/GribSignProps.v
theories/IdsListModel.v
theories/IdsListProps.v
theories/ScanProps.v
theories/SlopeProps.v
theories/OmtpInfoModel.v
theories/OmtpInfoProps.v
theories/HeadListModel.v
theories/HeadListProps.v
theories/Db1ListModel.v
theories/Db1ListProps.v
theories/ProdListModel.v
theories/ProdListProps.v
theories/DescListModel.v
theories/DescListProps.v
theories/NavListModel.v
theories/NavListProps.v
