-Q theories Verif
theories/Base.v
theories/BSpec.v
theories/Elements.v
theories/Value.v
theories/Codec.v
theories/CodecRead.v
theories/Itoa.v
theories/CodecRep.v
theories/Api.v
theories/ApiProofs.v
theories/Tree.v
theories/GetterProofs.v
theories/ReaderOps.v
theories/ReadSafe.v
theories/CodecProps.v
theories/DocOps.v
theories/DocSpec.v
theories/DocProofs.v
theories/Search.v
theories/Stream.v
theories/Sort.v
theories/DocMap.v
theories/DocProps.v
theories/EmptyProps.v
theories/Oid.v
theories/Dec128.v
theories/DecProofs.v
theories/TypesProps.v
theories/Wire.v
theories/WireSpec.v
theories/WireProofs.v
theories/WireProps.v
theories/WireHostile.v
theories/WireHostileProps.v
theories/FtdcSpec.v
theories/Ftdc.v
theories/FtdcProofs.v
theories/FtdcRestore.v
theories/FtdcProps.v
theories/FtdcFlatProps.v
theories/Collect.v
theories/CollectProofs.v
theories/CollectProps.v
theories/CollectStreamProps.v
theories/CollectMiscProps.v
theories/CollectMetaProps.v
theories/Lin.v
theories/Sync.v
theories/SyncProps.v
theories/Registry.v
theories/RegistryProps.v
theories/Events.v
theories/EventsProps.v
theories/RecorderProps.v
theories/Metrics.v
theories/MetricsProps.v
theories/JsonSpec.v
theories/Json.v
theories/JsonProofs.v
theories/JsonParse.v
theories/JsonProps.v
theories/ExtJson.v
theories/ExtJsonProofs.v
theories/ExtJsonProps.v
theories/Csv.v
theories/CsvProps.v
theories/Drivers.v
theories/DriversProps.v
theories/RuntimeProps.v
theories/Shell.v
theories/ShellProps.v
theories/Iface.v
theories/IfaceProofs.v
theories/IfaceProps.v
theories/Custom.v
theories/CustomProps.v
theories/Into.v
theories/IntoProps.v
theories/Blist.v
theories/BlistProps.v
theories/GoStats.v
theories/GoStatsProps.v
theories/Hist.v
theories/HistProps.v
theories/SyncRec.v
theories/SyncRecProps.v
theories/Model.v
theories/ModelProps.v
theories/FtdcRaw.v
theories/FtdcRawProps.v
theories/ValidProps.v
theories/Pipe.v
theories/PipeProps.v
theories/RdIter.v
theories/RdIterProps.v
theories/Procs.v
theories/ProcsProps.v
theories/Alias.v
theories/AliasProps.v
theories/LoopDoc.v
theories/LoopDocProps.v
theories/Pool.v
theories/PoolProps.v
theories/CheckProps.v
theories/SysInfo.v
theories/SysInfoProps.v
theories/Crash.v
theories/CrashProps.v
theories/ProcInfo.v
theories/ProcInfoProps.v
theories/Text.v
theories/TextProps.v
theories/Payload.v
theories/PayloadProps.v
theories/Options.v
theories/OptionsProps.v
theories/Lookup.v
theories/LookupProps.v
theories/UnmarshalProps.v
theories/JCopy.v
theories/JCopyProps.v
