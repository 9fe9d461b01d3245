-Q theories Verif
theories/Base.v
theories/BaseProofs.v
theories/ParseModel.v
theories/ParseSpec.v
theories/ParseProofs.v
theories/DecProofs.v
theories/ParseText.v
theories/ParseTextProps.v
theories/ParseProps.v
theories/WireModel.v
theories/WireSpec.v
theories/WireProofs.v
theories/WireProps.v
theories/SslModel.v
theories/SslSpec.v
theories/SslProofs.v
theories/SslProps.v
theories/LveModel.v
theories/LveSpec.v
theories/LveProofs.v
theories/LveSteps.v
theories/LveHist.v
theories/LveThms.v
theories/LveProps.v
theories/LveTextProps.v
theories/ToolModel.v
theories/ToolSpec.v
theories/ToolProofs.v
theories/ToolProps.v
theories/SessionModel.v
theories/SessionSpec.v
theories/SessionProofs.v
theories/SessionProps.v
theories/ErrorModel.v
theories/ErrorSpec.v
theories/ErrorProofs.v
theories/ErrorProps.v
theories/MainModel.v
theories/MainSpec.v
theories/MainProofs.v
theories/MainProps.v
theories/CryptModel.v
theories/CryptSpec.v
theories/CbcProofs.v
theories/MaskProofs.v
theories/DemaskProofs.v
theories/CryptProofs.v
theories/CryptProps.v
theories/LibraryModel.v
theories/LibrarySpec.v
theories/LibraryProofs.v
theories/LibraryProps.v
theories/ArgsModel.v
theories/ArgsSpec.v
theories/ArgsProofs.v
theories/ArgsProps.v
theories/XmlSpec.v
theories/XmlProofs.v
theories/ManifestModel.v
theories/ManifestSpec.v
theories/ManifestProofs.v
theories/ManifestProps.v
theories/PackageModel.v
theories/PackageSpec.v
theories/TreeProofs.v
theories/CopyProofs.v
theories/EncProofs.v
theories/ZipProofs.v
theories/PackageProofs.v
theories/IconProofs.v
theories/ShipProofs.v
theories/KeepProofs.v
theories/LostProofs.v
theories/PackageExamples.v
theories/PackageProps.v
theories/ShipSpec.v
theories/ShipSession.v
theories/ShipProps.v
theories/ShipLostProps.v
theories/EmbedModel.v
theories/EmbedSpec.v
theories/EmbedProofs.v
theories/EmbedKeys.v
theories/EmbedProps.v
theories/KeyProps.v
theories/CliModel.v
theories/CliSpec.v
theories/CliMasks.v
theories/CliProofs.v
theories/CliPrograms.v
theories/CliDecrypt.v
theories/CliProps.v
theories/SpawnModel.v
theories/SpawnSpec.v
theories/SpawnProofs.v
theories/SpawnHist.v
theories/SpawnThms.v
theories/SpawnProps.v
theories/TlsModel.v
theories/TlsSpec.v
theories/TlsProofs.v
theories/TlsProps.v
theories/PackCopyModel.v
theories/PackCopyProps.v
theories/HelpModel.v
theories/HelpSpec.v
theories/HelpProofs.v
theories/HelpProps.v
theories/WinModel.v
theories/WinSpec.v
theories/WinProofs.v
theories/WinHist.v
theories/WinThms.v
theories/WinProps.v
theories/WinPackModel.v
theories/WinPackSpec.v
theories/WinPackProofs.v
theories/WinEncProofs.v
theories/WinPackProps.v
theories/SecretSpec.v
theories/SecretProofs.v
theories/DummyModel.v
theories/LicenceProofs.v
theories/LicenceProps.v
theories/MemModel.v
theories/MemSpec.v
theories/MemProofs.v
theories/MemLve.v
theories/MemLeak.v
theories/MemToolModel.v
theories/MemTool.v
theories/MemProps.v
theories/NestModel.v
theories/NestSpec.v
theories/NestProofs.v
theories/NestProps.v
theories/SpellSpec.v
theories/SpellProofs.v
theories/SpellProps.v
theories/WinReadModel.v
theories/WinReadSpec.v
theories/WinReadProofs.v
theories/WinReadProps.v
theories/FailModel.v
theories/FailSpec.v
theories/FailMem.v
theories/FailProofs.v
theories/FailProps.v
theories/FailEncModel.v
theories/FailEncProofs.v
theories/FailEncProps.v
theories/SwapProofs.v
theories/SwapProps.v
theories/DeadModel.v
theories/DeadSpec.v
theories/DeadProofs.v
theories/DeadStart.v
theories/DeadProps.v
theories/WinToolModel.v
theories/WinToolSpec.v
theories/WinToolProofs.v
theories/WinToolProps.v
theories/LiveSpec.v
theories/LiveProofs.v
theories/LiveProps.v
theories/LogModel.v
theories/LogSpec.v
theories/LogProofs.v
theories/LogSameProofs.v
theories/LogProps.v
theories/VersionModel.v
theories/JsonSpec.v
theories/VersionProofs.v
theories/VersionProps.v
theories/DeliverSpec.v
theories/DeliverProofs.v
theories/DeliverProps.v
theories/ReapModel.v
theories/ReapProofs.v
theories/ReapProps.v
theories/RerunModel.v
theories/RerunProofs.v
theories/RerunProps.v
theories/QueueModel.v
theories/QueueSpec.v
theories/QueueProofs.v
theories/QueueProps.v
theories/WinArgsModel.v
theories/WinArgsSpec.v
theories/WinArgsProofs.v
theories/WinArgsProps.v
theories/DocSpec.v
theories/DocProofs.v
theories/DocProps.v
theories/ModeModel.v
theories/ModeSpec.v
theories/ModeProofs.v
theories/ModeProps.v
theories/StructSpec.v
theories/StructProofs.v
theories/StructProps.v
theories/ReleaseModel.v
theories/ReleaseSpec.v
theories/ReleaseProofs.v
theories/ReleasePath.v
theories/ReleaseProps.v
theories/CodesSpec.v
theories/CodesProofs.v
theories/CodesProps.v
theories/AsprintfModel.v
theories/AsprintfSpec.v
theories/AsprintfProofs.v
theories/AsprintfProps.v
theories/LveListModel.v
theories/LveListProofs.v
theories/LveListProps.v
