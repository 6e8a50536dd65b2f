-Q theories Verif

theories/Str.v
theories/PathModel.v
theories/PathSpec.v
theories/PathProofs.v
theories/PathProps.v
theories/SMap.v
theories/Json.v
theories/Types.v
theories/RegistryModel.v
theories/RegistrySpec.v
theories/RegistryProofs.v
theories/RegistryProps.v
theories/ReflectModel.v
theories/ReflectSpec.v
theories/ReflectProofs.v
theories/ReflectProofs2.v
theories/ReflectComps.v
theories/ReflectProps.v
theories/BodySpec.v
theories/BodyProofs.v
theories/BodyComps.v
theories/BodyProps.v
theories/DefName.v
theories/DefNameProps.v
theories/SchemaModel.v
theories/SchemaSpec.v
theories/SchemaProofs.v
theories/SchemaRefs.v
theories/SchemaRefs2.v
theories/SchemaOrder.v
theories/SchemaInline.v
theories/SchemaProps.v
theories/UnionModel.v
theories/UnionSpec.v
theories/UnionProofs.v
theories/UnionProps.v
theories/YamlModel.v
theories/YamlSpec.v
theories/YamlProofs.v
theories/YamlProps.v
theories/WalkModel.v
theories/WalkSpec.v
theories/WalkProofs.v
theories/WalkProofs2.v
theories/WalkProps.v
theories/ContextModel.v
theories/ContextSpec.v
theories/ContextProofs.v
theories/ContextProps.v
theories/CodecModel.v
theories/CodecTables.v
theories/CodecSpec.v
theories/CodecProofs.v
theories/CodecEnc.v
theories/CodecRound.v
theories/CodecDis.v
theories/CodecRT.v
theories/CodecObjSpec.v
theories/CodecStrict.v
theories/CodecCheck.v
theories/CodecDocs.v
theories/CodecWrite.v
theories/CodecProps.v
theories/CodecTypeSpec.v
theories/CodecMembers.v
theories/CodecProps2.v
theories/CodecConstr.v
theories/CodecParams.v
theories/CodecProps3.v
theories/ReadModel.v
theories/ReadSpec.v
theories/ReadProofs.v
theories/ReadRun.v
theories/ReadSchemas.v
theories/ReadProps.v
theories/MeanSpec.v
theories/MeanProps.v
theories/RefSpec.v
theories/RefProofs.v
theories/RefProps.v
theories/BuildModel.v
theories/BuildTables.v
theories/BuildSpec.v
theories/BuildProofs.v
theories/BuildWrite.v
theories/BuildProps.v
theories/OrdModel.v
theories/OrdSpec.v
theories/OrdProofs.v
theories/OrdWrite.v
theories/YamlDocModel.v
theories/YamlDocSpec.v
theories/OrdCheck.v
theories/OrdShape.v
theories/YamlDocProofs.v
theories/OrdProps.v
theories/TextModel.v
theories/TextSpec.v
theories/TextProofs.v
theories/TextProps.v
theories/RoundProofs.v
theories/RoundProps.v
theories/ShareModel.v
theories/ShareSpec.v
theories/ShareProofs.v
theories/ShareProofs31.v
theories/ShareProps.v
theories/UsedSpec.v
theories/UsedProofs.v
theories/UsedTwice.v
theories/UsedProps.v
theories/HookModel.v
theories/HookSpec.v
theories/HookProofs.v
theories/HookProps.v
theories/SeqSpec.v
theories/SeqProofs.v
theories/SeqCalls.v
theories/SeqDocs.v
theories/SeqProps.v
theories/TellModel.v
theories/TellSpec.v
theories/TellSchemas.v
theories/TellMeans.v
theories/TellProofs.v
theories/TellProps.v
theories/HeapModel.v
theories/HeapSpec.v
theories/HeapProofs.v
theories/HeapProps.v
theories/LinkModel.v
theories/LinkProofs.v
theories/LinkProps.v
theories/BytesSpec.v
theories/BytesModel.v
theories/BytesProofs.v
theories/BytesDocs.v
theories/BytesSound.v
theories/BytesProps.v
theories/ReuseModel.v
theories/ReuseSpec.v
theories/ReuseProofs.v
theories/ReuseProps.v
theories/WireProps.v
theories/FoldProps.v
theories/FailModel.v
theories/FailSpec.v
theories/FailProofs.v
theories/FailLink.v
theories/FailTyped.v
theories/FailProps.v
theories/WholeSpec.v
theories/WholeProofs.v
theories/WholeProps.v
theories/AgainSpec.v
theories/AgainProofs.v
theories/AgainTail.v
theories/AgainMain.v
theories/AgainProps.v
theories/ScanModel.v
theories/ScanSpec.v
theories/ScanProofs.v
theories/DepthModel.v
theories/DepthProofs.v
theories/DepthProps.v
theories/ManyModel.v
theories/ManySpec.v
theories/ManyProofs.v
theories/ManyAlone.v
theories/ManyProps.v
theories/SchemeProofs.v
theories/SchemeProps.v
theories/SaySpec.v
theories/SayProofs.v
theories/SayDocs.v
theories/SayDocs31.v
theories/SaySchema.v
theories/SayProps.v
