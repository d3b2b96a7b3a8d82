-Q theories Verif
theories/Common.v
theories/TextModel.v
theories/TextSpec.v
theories/Utf8Proofs.v
theories/TextProofs.v
theories/TextProps.v
theories/ListSpec.v
theories/ListModel.v
theories/ListProofs.v
theories/ListProps.v
theories/RenderModel.v
theories/RenderProofs.v
theories/RenderProps.v
theories/Fuel.v
theories/MapSpec.v
theories/MapModel.v
theories/MapProofs.v
theories/MapProps.v
theories/MemModel.v
theories/MemSpec.v
theories/MemProofs.v
theories/MemProps.v
theories/GcModel.v
theories/GcSpec.v
theories/GcProofs.v
theories/GcProps.v
theories/Txt.v
theories/FloatSpec.v
theories/FloatProofs.v
theories/NumModel.v
theories/NumSpec.v
theories/NumProofs.v
theories/SqrtProofs.v
theories/NumFacts.v
theories/NumProps.v
theories/LexModel.v
theories/LexSpec.v
theories/LexProofs.v
theories/Dicts.v
theories/LexProps.v
theories/ParseModel.v
theories/ParseSpec.v
theories/ParseProofs.v
theories/LayoutProofs.v
theories/ParseProps.v
theories/SipModel.v
theories/SipSpec.v
theories/SipProofs.v
theories/SipProps.v
theories/EvalModel.v
theories/EvalWorld.v
theories/EvalSpec.v
theories/EvalParse.v
theories/EvalProofs.v
theories/EvalMono.v
theories/EvalFlow.v
theories/EvalTask.v
theories/EvalLimits.v
theories/EvalEndless.v
theories/EvalProps.v
theories/JsonModel.v
theories/JsonSpec.v
theories/JsonProofs.v
theories/JsonTok.v
theories/JsonRun.v
theories/JsonGrammar.v
theories/JsonRound.v
theories/JsonProps.v
theories/FileModel.v
theories/FileSpec.v
theories/FileProofs.v
theories/FileProps.v
theories/SlurpModel.v
theories/SlurpSpec.v
theories/SlurpProofs.v
theories/SlurpProps.v
theories/ProgModel.v
theories/ProgSpec.v
theories/ProgProofs.v
theories/ProgProps.v
theories/ClockModel.v
theories/ClockSpec.v
theories/ClockDicts.v
theories/ClockProofs.v
theories/ClockProps.v
theories/LangDicts.v
theories/TransModel.v
theories/TransSpec.v
theories/TransLex.v
theories/TransScan.v
theories/TransFind.v
theories/TransNotes.v
theories/TransMain.v
theories/TransLoop.v
theories/TransProofs.v
theories/TransProps.v
theories/IterSpec.v
theories/IterModel.v
theories/IterProofs.v
theories/IterProps.v
theories/ReqSpec.v
theories/ReqModel.v
theories/ReqProofs.v
theories/ReqProps.v
theories/EditSpec.v
theories/EditModel.v
theories/EditProofs.v
theories/EditProps.v
theories/PackSpec.v
theories/PackModel.v
theories/PackProofs.v
theories/PackProps.v
theories/RegexSpec.v
theories/RegexModel.v
theories/RegexProofs.v
theories/RegexProps.v
theories/ValSpec.v
theories/ValModel.v
theories/ValProofs.v
theories/ValProps.v
theories/DateDicts.v
theories/DateSpec.v
theories/DateModel.v
theories/DateProofs.v
theories/DateProps.v
theories/BlobSpec.v
theories/BlobModel.v
theories/BlobProofs.v
theories/NativeProofs.v
theories/FfiModel.v
theories/FfiProofs.v
theories/BlobProps.v
theories/FfiProps.v
theories/RegTable.v
theories/RegArity.v
theories/MsgDicts1.v
theories/MsgDicts2.v
theories/MsgDicts3.v
theories/MsgDicts4.v
theories/RegModel.v
theories/RegSpec.v
theories/RegCheck.v
theories/RegProofs.v
theories/RegProps.v
theories/TimerSpec.v
theories/TimerModel.v
theories/TimerProofs.v
theories/TimerProps.v
theories/PhysSpec.v
theories/PhysModel.v
theories/PhysProofs.v
theories/MoveProofs.v
theories/PhysProps.v
theories/MoveProps.v
theories/CtlSpec.v
theories/CtlModel.v
theories/CtlProofs.v
theories/CtlProps.v
theories/ErrDicts.v
theories/ErrSpec.v
theories/ErrModel.v
theories/ErrProofs.v
theories/ErrProps.v
theories/ExtSpec.v
theories/ExtModel.v
theories/ExtProofs.v
theories/ExtProps.v
theories/ExpModel.v
theories/ExpProofs.v
theories/ExpProps.v
theories/HdrDicts.v
theories/GenSpec.v
theories/GenModel.v
theories/GenProofs.v
theories/GenLoad.v
theories/GenData.v
theories/GenLang.v
theories/GenProps.v
theories/DrawSpec.v
theories/DrawModel.v
theories/DrawProofs.v
theories/DrawMore.v
theories/DrawProps.v
theories/SlotSpec.v
theories/SlotModel.v
theories/SlotProofs.v
theories/SlotProps.v
theories/CodecSpec.v
theories/CodecModel.v
theories/CodecProofs.v
theories/CodecMore.v
theories/CodecProps.v
theories/ReelSpec.v
theories/ReelModel.v
theories/ReelProofs.v
theories/ReelProps.v
theories/AssetSpec.v
theories/AssetModel.v
theories/AssetProofs.v
theories/AssetProps.v
theories/ShapeSpec.v
theories/ShapeModel.v
theories/ShapeProofs.v
theories/ShapeProps.v
theories/TuneSpec.v
theories/TuneModel.v
theories/TuneProofs.v
theories/TuneProps.v
theories/ScgiSpec.v
theories/ScgiModel.v
theories/ScgiProofs.v
theories/ScgiServer.v
theories/ScgiProps.v
theories/ListenSpec.v
theories/ListenModel.v
theories/ListenProofs.v
theories/ListenProps.v
theories/PlugSpec.v
theories/PlugModel.v
theories/PlugProofs.v
theories/PlugProps.v
theories/StructSpec.v
theories/StructModel.v
theories/StructProofs.v
theories/StructProps.v
theories/ViewSpec.v
theories/ViewModel.v
theories/ViewProofs.v
theories/ViewProps.v
theories/AlignSpec.v
theories/AlignModel.v
theories/AlignProofs.v
theories/AlignProps.v
theories/UnitSpec.v
theories/UnitModel.v
theories/UnitProofs.v
theories/UnitProps.v
theories/MedTable.v
theories/MedSpec.v
theories/MedModel.v
theories/MedCheck.v
theories/MedProofs.v
theories/MedProps.v
theories/MdictModel.v
theories/MdictProofs.v
theories/MdictProps.v
theories/ModsModel.v
theories/ModsProofs.v
theories/ModsProps.v
theories/SameSpec.v
theories/SameLex.v
theories/SameProofs.v
theories/SameLang.v
theories/SameProps.v
