-Q theories Verif
theories/Bytes.v
theories/Layout.v
theories/ScsiDefs.v
theories/NvmeDefs.v
theories/World.v
theories/Common.v
theories/ReadCmds.v
theories/WriteCmds.v
theories/SmallCmds.v
theories/UnmapCmd.v
theories/StatusCmd.v
theories/ModeSenseCmd.v
theories/InquiryCmd.v
theories/TranslationCls.v
theories/EngineE2e.v
theories/Spec.v
theories/Facts.v
theories/Logic.v
theories/BeginFacts.v
theories/CompleteFacts.v
theories/WireFacts.v
theories/StatusFacts.v
theories/Witness.v
theories/Properties1.v
theories/RwSpec.v
theories/RwFacts.v
theories/Properties2.v
theories/InquirySpec.v
theories/AdminFacts.v
theories/InquiryFacts.v
theories/SerialFacts.v
theories/Properties3.v
theories/SmallSpec.v
theories/SmallFacts.v
theories/Properties4.v
theories/ModeSpec.v
theories/ModeFacts.v
theories/Mode10Facts.v
theories/Properties5.v
theories/HistorySpec.v
theories/RelFacts.v
theories/Properties6.v
theories/UnmapSpec.v
theories/UnmapFacts.v
theories/DefinedFacts.v
theories/JunkFacts.v
theories/Properties7.v
theories/Properties8.v
theories/EngineSpec.v
theories/EngineFacts.v
theories/Properties9.v
theories/Properties10.v
theories/MockModule.v
theories/MockSpec.v
theories/MockFacts.v
theories/Properties11.v
theories/Properties12.v
theories/KernelDriver.v
theories/ModuleLife.v
theories/KernelSpec.v
theories/Properties13.v
theories/CatalogSpec.v
theories/CatalogFacts.v
theories/Properties14.v
theories/ManySpec.v
theories/BlindFacts.v
theories/Properties15.v
theories/DiskSpec.v
theories/DiskFacts.v
theories/Properties16.v
theories/Properties17.v
theories/ProgFacts.v
theories/LocalSpec.v
theories/StrictCls.v
theories/Properties18.v
theories/Properties19.v
theories/MixedSpec.v
theories/Properties20.v
theories/ConcSpec.v
theories/ConcFacts.v
theories/Properties21.v
theories/DurableSpec.v
theories/DurableFacts.v
theories/Properties22.v
theories/UndefSpec.v
theories/Properties23.v
theories/AcceptSpec.v
theories/AcceptFacts.v
theories/Properties24.v
theories/Properties25.v
theories/AnnounceFacts.v
theories/Properties26.v
theories/ModuleSpec.v
theories/Properties27.v
theories/Properties28.v
theories/DebugLog.v
theories/Properties29.v
theories/Properties30.v
theories/ModuleDurableSpec.v
theories/Properties31.v
theories/ConcDiskSpec.v
theories/ConcDiskFacts.v
theories/Properties32.v
theories/HostTemplate.v
theories/LunSpec.v
theories/Properties33.v
theories/Properties34.v
theories/AdvertSpec.v
theories/Properties35.v
theories/Properties36.v
theories/CacheSpec.v
theories/Properties37.v
theories/Properties38.v
theories/Properties39.v
theories/Properties40.v
theories/Properties41.v
theories/Properties42.v
theories/ConcAllSpec.v
theories/Properties43.v
theories/Properties44.v
theories/Properties45.v
theories/SenseSpec.v
theories/Properties46.v
theories/Properties47.v
theories/Properties48.v
theories/Properties49.v
theories/Properties50.v
theories/Properties51.v
theories/Properties52.v
theories/Properties53.v
theories/Properties54.v
theories/Properties55.v
theories/Properties56.v
theories/Properties57.v
theories/Properties58.v
