-Q theories Verif
theories/Py.v
theories/Msg.v
theories/Address.v
theories/Float.v
theories/Dpt.v
theories/Tables.v
theories/LData.v
theories/Inet.v
theories/State.v
theories/Encode.v
theories/Decode.v
theories/Client.v
theories/Daemon.v
theories/DaemonLife.v
theories/Base.v
theories/SpecMsg.v
theories/MsgProofs.v
theories/Props_Msg.v
theories/SpecTables.v
theories/TablesProofs.v
theories/AssocProofs.v
theories/SpecShared.v
theories/SharedProofs.v
theories/Props_Tables.v
theories/Props_Shared.v
theories/Mutate.v
theories/SpecMutate.v
theories/MutateProofs.v
theories/LiveProofs.v
theories/Props_Mutate.v
theories/SpecInet.v
theories/InetProofs.v
theories/SpecWire.v
theories/EncodeProofs.v
theories/Props_Encode.v
theories/Props_Inet.v
theories/Text.v
theories/SpecText.v
theories/TextProofs.v
theories/Props_Text.v
theories/Conformance.v
theories/SpecDecode.v
theories/DecodeProofs.v
theories/SimProofs.v
theories/IpProofs.v
theories/Props_Decode.v
theories/OctetsProofs.v
theories/SpecClient.v
theories/ClientProofs.v
theories/DeliveryProofs.v
theories/RoundProofs.v
theories/Props_Roundtrip.v
theories/Props_Client.v
theories/SpecDpt.v
theories/DptProofs.v
theories/FloatProofs.v
theories/KnxFloatProofs.v
theories/SingleProofs.v
theories/Props_Dpt.v
theories/Props_Octets.v
theories/SpecDaemon.v
theories/DaemonProofs.v
theories/Props_Daemon.v
theories/Props_Library.v
theories/Props_Life.v
theories/Props_Site.v
theories/SpecSystem.v
theories/SystemProofs.v
theories/Props_System.v
theories/SpecAcross.v
theories/AcrossProofs.v
theories/Props_Across.v
theories/SpecFail.v
theories/FailProofs.v
theories/Props_Fail.v
theories/SpecBlock.v
theories/BlockProofs.v
theories/Props_Block.v
theories/DaemonArgs.v
theories/SpecArgs.v
theories/ArgsProofs.v
theories/Props_Args.v
theories/MessageText.v
theories/SpecMessage.v
theories/MessageProofs.v
theories/Props_Message.v
theories/SpecListen.v
theories/ListenProofs.v
theories/Props_Listen.v
theories/SpecPieces.v
theories/PiecesProofs.v
theories/Props_Pieces.v
theories/SpecSends.v
theories/SendsProofs.v
theories/Props_Sends.v
theories/DaemonSelect.v
theories/SpecSelect.v
theories/SelectProofs.v
theories/Props_Select.v
theories/ClientTime.v
theories/SpecTime.v
theories/TimeProofs.v
theories/Props_Time.v
theories/ClientMain.v
theories/SpecMain.v
theories/Props_Main.v
theories/ClientStream.v
theories/SpecStream.v
theories/StreamProofs.v
theories/Props_Stream.v
theories/SpecWhole.v
theories/Props_Whole.v
theories/SpecBack.v
theories/Props_Back.v
theories/LDataObj.v
theories/SpecLData.v
theories/Props_LData.v
theories/SpecPrompt.v
theories/Props_Prompt.v
theories/SpecBeat.v
theories/Props_Beat.v
theories/SpecAlike.v
theories/Props_Alike.v
theories/SpecStay.v
theories/Props_Stay.v
theories/SpecOrder.v
theories/OrderProofs.v
theories/Props_Order.v
theories/DaemonFlow.v
theories/SpecFlow.v
theories/FlowProofs.v
theories/Props_Flow.v
theories/SpecApart.v
theories/ApartProofs.v
theories/Props_Apart.v
theories/SpecRefuse.v
theories/RefuseProofs.v
theories/Props_Refuse.v
theories/SpecHeard.v
theories/HeardProofs.v
theories/Props_Heard.v
theories/Unicode.v
theories/SpecUnicode.v
theories/UnicodeProofs.v
theories/Props_Unicode.v
theories/SpecGist.v
theories/GistProofs.v
theories/Props_Gist.v
theories/SpecMedia.v
theories/MediaProofs.v
theories/Props_Media.v
theories/StateText.v
theories/SpecStateText.v
theories/StateTextProofs.v
theories/Props_StateText.v
theories/SpecLeft.v
theories/LeftProofs.v
theories/Props_Left.v
theories/SpecClima.v
theories/SpecValue.v
theories/SpecNoted.v
theories/SpecMixed.v
theories/SpecTalk.v
theories/SpecEntries.v
theories/SpecShelf.v
theories/ClimaProofs.v
theories/SpecFactory.v
theories/FactoryProofs.v
theories/Props_Factory.v
theories/SpecBare.v
theories/BareProofs.v
theories/Props_Bare.v
theories/SpecTyped.v
theories/TypedProofs.v
theories/Props_Typed.v
theories/SpecTold.v
theories/ToldProofs.v
theories/Props_Told.v
theories/SpecStranger.v
theories/StrangerProofs.v
theories/Props_Stranger.v
theories/SpecMachine.v
theories/MachineProofs.v
theories/Props_Machine.v
theories/SpecBook.v
theories/BookProofs.v
theories/Props_Book.v
theories/SpecLossy.v
theories/LossyProofs.v
theories/Props_Lossy.v
theories/SpecSessions.v
theories/SessionsProofs.v
theories/Props_Sessions.v
theories/Props_Endpoint.v
theories/Props_Clima.v
theories/SpecReorder.v
theories/ReorderProofs.v
theories/Props_Reorder.v
theories/Props_Value.v
theories/Props_Noted.v
theories/Props_Mixed.v
theories/Props_Talk.v
theories/Props_Entries.v
theories/Props_Shelf.v
