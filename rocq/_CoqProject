-Q theories Verif
theories/GoBase.v
theories/SegModel.v
theories/IoiModel.v
theories/IoiSpec.v
theories/IoiProof.v
theories/Prop_Ioi.v
theories/SegSpec.v
theories/SegProof.v
theories/Prop_Segments.v
theories/PathModel.v
theories/PathSpec.v
theories/PathProof.v
theories/Prop_Path.v
theories/TypesModel.v
theories/ItemsModel.v
theories/ItemsSpec.v
theories/ItemsProof.v
theories/Prop_Items.v
theories/ReadModel.v
theories/ReadSpec.v
theories/ReadProof.v
theories/Prop_Read.v
theories/BatchModel.v
theories/BatchSpec.v
theories/BatchProof.v
theories/Prop_Batch.v
theories/PackTypes.v
theories/PackModel.v
theories/PackSpec.v
theories/PackProof.v
theories/PackRead.v
theories/PackBack.v
theories/Prop_Pack.v
theories/Prop_PackRead.v
theories/WriteModel.v
theories/WriteSpec.v
theories/WriteProof.v
theories/Prop_Write.v
theories/AttrModel.v
theories/AttrSpec.v
theories/AttrProof.v
theories/Prop_Attr.v
theories/ErrModel.v
theories/ErrSpec.v
theories/Prop_Err.v
theories/GroupModel.v
theories/GroupSpec.v
theories/GroupProof.v
theories/Prop_Group.v
theories/DataModel.v
theories/DataSpec.v
theories/DataProof.v
theories/Prop_Data.v
theories/EipModel.v
theories/EipSpec.v
theories/EipProof.v
theories/Prop_Eip.v
theories/OpenModel.v
theories/OpenSpec.v
theories/OpenProof.v
theories/Prop_Open.v
theories/ConnModel.v
theories/ConnSpec.v
theories/ConnProof.v
theories/Prop_Conn.v
theories/TableModel.v
theories/TableSpec.v
theories/TableProof.v
theories/Prop_Table.v
theories/ProvModel.v
theories/ProvSpec.v
theories/ProvProof.v
theories/Prop_Prov.v
theories/SrvValModel.v
theories/SrvValSpec.v
theories/SrvValProof.v
theories/Prop_SrvVal.v
theories/SrvModel.v
theories/SrvSpec.v
theories/SrvProof.v
theories/Prop_Srv.v
theories/ReqSpec.v
theories/LinkModel.v
theories/ReqProof.v
theories/Prop_Req.v
theories/LgxModel.v
theories/LgxSpec.v
theories/LgxProof.v
theories/Prop_Lgx.v
theories/KnownModel.v
theories/KnownSpec.v
theories/KnownProof.v
theories/Prop_Known.v
theories/Prop_Structs.v
theories/Prop_StructsE.v
theories/TextsSpec.v
theories/TextsProof.v
theories/Prop_Texts.v
theories/Prop_TextsW.v
theories/AutoKModel.v
theories/Prop_AutoK.v
theories/AddrModel.v
theories/Prop_Addr.v
theories/UdtSpec.v
theories/UdtProof.v
theories/Prop_Udt.v
theories/IdentModel.v
theories/IdentSpec.v
theories/IdentProof.v
theories/Prop_Ident.v
theories/ListModel.v
theories/ListSpec.v
theories/ListProof.v
theories/Prop_List.v
theories/WordSpec.v
theories/Prop_Word.v
theories/BrowseSpec.v
theories/BrowseProof.v
theories/Prop_Browse.v
theories/ManySpec.v
theories/ManyProof.v
theories/Prop_Many.v
theories/Prop_ManyWrite.v
theories/IoModel.v
theories/IoSpec.v
theories/IoProof.v
theories/Prop_Io.v
theories/RefModel.v
theories/RefSpec.v
theories/RefProof.v
theories/Prop_Ref.v
theories/MeetModel.v
theories/MeetSpec.v
theories/MeetProof.v
theories/Prop_Meet.v
theories/KeepModel.v
theories/KeepSpec.v
theories/KeepProof.v
theories/Prop_Keep.v
theories/CrashSpec.v
theories/Prop_Crash.v
theories/MultiModel.v
theories/Prop_Multi.v
theories/L5xModel.v
theories/L5xSpec.v
theories/L5xProof.v
theories/Prop_L5x.v
theories/Prop_L5xRung.v
theories/Prop_L5xTags.v
theories/CannedModel.v
theories/CannedSpec.v
theories/Prop_Canned.v
theories/StructModel.v
theories/StructSpec.v
theories/Prop_Struct.v
theories/PackedModel.v
theories/Prop_Packed.v
theories/LifeModel.v
theories/LifeSpec.v
theories/LifeProof.v
theories/Prop_Life.v
theories/OwnModel.v
theories/OwnSpec.v
theories/Prop_Own.v
theories/ServeModel.v
theories/ServeSpec.v
theories/Prop_Serve.v
theories/HangSpec.v
theories/Prop_Hang.v
theories/RouteSpec.v
theories/RouteProof.v
theories/Prop_Route.v
theories/SendSpec.v
theories/SendProof.v
theories/Prop_Send.v
theories/ReplySpec.v
theories/ReplyProof.v
theories/Prop_Reply.v
theories/ConcModel.v
theories/ConcSpec.v
theories/ConcProof.v
theories/Prop_Conc.v
theories/ShareModel.v
theories/ShareSpec.v
theories/ShareProof.v
theories/Prop_Share.v
theories/DropSpec.v
theories/DropProof.v
theories/Prop_Drop.v
theories/NameSpec.v
theories/NameProof.v
theories/Prop_Name.v
theories/WaitModel.v
theories/WaitProof.v
theories/Prop_Wait.v
theories/Prop_Grow.v
theories/FitSpec.v
theories/FitProof.v
theories/Prop_Fit.v
theories/BrowseCrashSpec.v
theories/Prop_BrowseCrash.v
theories/BuildSpec.v
theories/Prop_Build.v
theories/SessionSpec.v
theories/Prop_Session.v
theories/RouterModel.v
theories/RouterSpec.v
theories/Prop_Router.v
theories/AgainSpec.v
theories/Prop_Again.v
theories/LeaveSpec.v
theories/Prop_Leave.v
theories/AutoModel.v
theories/AutoSpec.v
theories/AutoProof.v
theories/Prop_Auto.v
theories/Prop_AutoW.v
theories/Prop_AutoS.v
theories/RaceModel.v
theories/RaceSpec.v
theories/Prop_Race.v
theories/CrewModel.v
theories/CrewSpec.v
theories/CrewProof.v
theories/Prop_Crew.v
