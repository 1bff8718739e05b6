-Q theories Verif
theories/GoStr.v
theories/InventoryModel.v
theories/PathModel.v
theories/ObjectModel.v
theories/InventorySpec.v
theories/InventoryProofs.v
theories/ObjectSpec.v
theories/ObjectProofs.v
theories/LookupProofs.v
theories/AddProofs.v
theories/RunProofs.v
theories/ClaimsInventory.v
theories/ClaimsInventory2.v
theories/Fixtures.v
theories/Properties1.v
theories/CrashSpec.v
theories/LoadModel.v
theories/PathProofs.v
theories/CrashProofs.v
theories/LoadProofs.v
theories/SessionSpec.v
theories/SessionProofs.v
theories/Fixtures2.v
theories/Properties2.v
theories/ValidateModel.v
theories/ValidateSpec.v
theories/ValidateProofs.v
theories/ValidateProofs2.v
theories/ValidateProofs3.v
theories/ValidateProofs4.v
theories/CheckModel.v
theories/EqualProofs.v
theories/CheckSpec.v
theories/CheckProofs.v
theories/CheckProofs2.v
theories/Fixtures3.v
theories/Properties3.v
theories/Utf8Model.v
theories/Utf8Proofs.v
theories/LayoutModel.v
theories/LayoutSpec.v
theories/LayoutProofs.v
theories/LayoutProofs2.v
theories/LayoutProofs3.v
theories/Properties4.v
theories/ConcModel.v
theories/ConcProofs.v
theories/ManagerModel.v
theories/ManagerSpec.v
theories/ManagerProofs.v
theories/Properties5.v
theories/AreaModel.v
theories/AreaSpec.v
theories/AreaProofs.v
theories/ExtractProofs.v
theories/Properties6.v
theories/RootModel.v
theories/RootSpec.v
theories/RootProofs.v
theories/Properties7.v
theories/ReportModel.v
theories/ReportSpec.v
theories/ReportProofs.v
theories/CleanModel.v
theories/CleanSpec.v
theories/CleanProofs.v
theories/Properties8.v
theories/FollowModel.v
theories/FollowSpec.v
theories/FollowProofs.v
theories/StreamModel.v
theories/StreamSpec.v
theories/StreamProofs.v
theories/Properties9.v
theories/AcceptSpec.v
theories/AcceptProofs.v
theories/AcceptProofs2.v
theories/AcceptProofs3.v
theories/Fixtures4.v
theories/Properties10.v
theories/PublishSpec.v
theories/PublishProofs.v
theories/PublishProofs2.v
theories/PublishProofs3.v
theories/PublishProofs4.v
theories/PublishProofs5.v
theories/Fixtures5.v
theories/Properties11.v
theories/JsonModel.v
theories/JsonSpec.v
theories/JsonProofs.v
theories/JsonInvModel.v
theories/JsonInvSpec.v
theories/JsonInvProofs.v
theories/JsonInvProofs2.v
theories/JsonInvProofs3.v
theories/Fixtures6.v
theories/Properties12.v
theories/JsonTypeSpec.v
theories/JsonTypeProofs.v
theories/JsonTypeProofs2.v
theories/GuaranteeProofs.v
theories/JsonTypeProofs3.v
theories/Fixtures7.v
theories/Properties13.v
theories/GuaranteeSpec.v
theories/GuaranteeProofs2.v
theories/GuaranteeProofs3.v
theories/Properties14.v
theories/TightProofs.v
theories/TightProofs2.v
theories/Properties15.v
theories/IngestModel.v
theories/IngestSpec.v
theories/IngestProofs.v
theories/IngestProofs2.v
theories/IngestProofs3.v
theories/IngestProofs4.v
theories/InheritProofs.v
theories/IngestProofs5.v
theories/IngestProofs6.v
theories/IngestProofs7.v
theories/Fixtures8.v
theories/Properties16.v
theories/IngestProofs8.v
theories/Properties17.v
theories/RootAddModel.v
theories/RootAddSpec.v
theories/RootAddProofs.v
theories/RootAddProofs2.v
theories/Fixtures9.v
theories/Properties18.v
theories/MetaModel.v
theories/MetaSpec.v
theories/MetaProofs.v
theories/Properties19.v
theories/JsonlModel.v
theories/JsonlSpec.v
theories/JsonlProofs.v
theories/JsonlProofs2.v
theories/JsonlProofs3.v
theories/Fixtures10.v
theories/Properties20.v
theories/HookSpec.v
theories/HookProofs.v
theories/HookProofs2.v
theories/HookProofs3.v
theories/Fixtures11.v
theories/Properties21.v
theories/MigrateModel.v
theories/MigrateSpec.v
theories/MigrateProofs.v
theories/MigrateProofs2.v
theories/MigrateProofs3.v
theories/MigrateProofs4.v
theories/MigrateProofs5.v
theories/MigrateProofs6.v
theories/Fixtures12.v
theories/Properties22.v
theories/RootCheckModel.v
theories/RootCheckSpec.v
theories/RootCheckProofs.v
theories/RootCheckProofs2.v
theories/RootCheckProofs3.v
theories/Fixtures13.v
theories/Properties23.v
theories/RootFillSpec.v
theories/RootFillProofs.v
theories/RootFillProofs2.v
theories/RootFillProofs3.v
theories/Fixtures14.v
theories/Properties24.v
theories/RootExtractModel.v
theories/RootExtractSpec.v
theories/RootExtractProofs.v
theories/RootExtractProofs2.v
theories/Properties25.v
theories/MetafileModel.v
theories/MetafileSpec.v
theories/MetafileProofs.v
theories/MetafileProofs2.v
theories/Fixtures15.v
theories/Properties26.v
theories/JsonTextSpec.v
theories/JsonTextProofs.v
theories/JsonTextProofs2.v
theories/JsonOrderProofs.v
theories/Properties27.v
theories/ThumbModel.v
theories/ThumbSpec.v
theories/ThumbProofs.v
theories/ThumbProofs2.v
theories/ThumbProofs3.v
theories/ThumbProofs4.v
theories/ThumbProofs5.v
theories/Fixtures16.v
theories/Properties28.v
theories/MetsModel.v
theories/MetsSpec.v
theories/MetsProofs.v
theories/MetsProofs2.v
theories/Fixtures17.v
theories/Properties29.v
theories/FsModel.v
theories/FsSpec.v
theories/FsProofs.v
theories/FsProofs2.v
theories/Fixtures18.v
theories/Properties30.v
theories/ConcurSpec.v
theories/ConcurProofs.v
theories/Properties31.v
theories/RetrySpec.v
theories/RetryProofs.v
theories/Properties32.v
theories/CodeModel.v
theories/CodeProofs.v
theories/Properties33.v
theories/ForeignModel.v
theories/ForeignProofs.v
theories/Properties34.v
theories/ForeignSpec.v
theories/ForeignProofs2.v
theories/Properties35.v
theories/ServerModel.v
theories/ServerSpec.v
theories/ServerProofs.v
theories/ServerProofs2.v
theories/ServerProofs3.v
theories/Properties36.v
theories/ContinueSpec.v
theories/ContinueProofs.v
theories/ContinueProofs2.v
theories/ContinueProofs3.v
theories/Properties37.v
theories/UnreadModel.v
theories/UnreadProofs.v
theories/Properties38.v
theories/UnreadCheckModel.v
theories/UnreadCheckProofs.v
theories/Properties39.v
theories/StatModel.v
theories/StatProofs.v
theories/Properties40.v
