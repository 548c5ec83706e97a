-Q theories Verif
theories/Base.v
theories/MemModel.v
theories/MsgModel.v
theories/BaseLemmas.v
theories/MemSpec.v
theories/MemLemmas.v
theories/Properties_Mem.v
theories/MsgSpec.v
theories/MsgLemmas.v
theories/MsgFormatLemmas.v
theories/MsgBlockLemmas.v
theories/MsgMemModel.v
theories/MsgMemSpec.v
theories/MsgMemLemmas.v
theories/Properties_Msg.v
theories/Properties_MsgMem.v
theories/ClientModel.v
theories/ClientSpec.v
theories/ClientLemmas.v
theories/ClientReplyLemmas.v
theories/ClientPropLemmas.v
theories/ClientBlockLemmas.v
theories/Properties_Client.v
theories/ServerModel.v
theories/ServerSpec.v
theories/ServerLemmas.v
theories/ServerTraceLemmas.v
theories/ServerPropLemmas.v
theories/ServerHistLemmas.v
theories/ServerTimerLemmas.v
theories/ServerRetransLemmas.v
theories/ServerBlockSpec.v
theories/ServerBlockLemmas.v
theories/ServerUploadLemmas.v
theories/ServerTransferLemmas.v
theories/ServerDownloadLemmas.v
theories/ServerBlockStepLemmas.v
theories/ServerSafeLemmas.v
theories/ServerFixtures.v
theories/Properties_Server.v
theories/Properties_ServerBlock.v
theories/E2EModel.v
theories/E2ESpec.v
theories/E2ELemmas.v
theories/E2EDownloadLemmas.v
theories/E2EUploadLemmas.v
theories/Properties_E2E.v
theories/BufModel.v
theories/BufSpec.v
theories/BufLemmas.v
theories/Properties_Buf.v
theories/TableModel.v
theories/TableSpec.v
theories/TableLemmas.v
theories/Properties_Table.v
theories/UriModel.v
theories/UriSpec.v
theories/UriLemmas.v
theories/UriOctetLemmas.v
theories/Properties_Uri.v
theories/HttpModel.v
theories/HttpSpec.v
theories/HttpLemmas.v
theories/HttpSafeLemmas.v
theories/HttpChunkLemmas.v
theories/HttpHeadLemmas.v
theories/Properties_Http.v
theories/CrossModel.v
theories/CrossSpec.v
theories/CrossLemmas.v
theories/Properties_Cross.v
theories/ConModel.v
theories/ConSpec.v
theories/ConLemmas.v
theories/ConSafeLemmas.v
theories/Properties_Con.v
theories/ConfigModel.v
theories/ConfigSpec.v
theories/ConfigLemmas.v
theories/Properties_Config.v
theories/SampleModel.v
theories/SampleSpec.v
theories/SampleLemmas.v
theories/Properties_Sample.v
theories/RegModel.v
theories/RegSpec.v
theories/RegLemmas.v
theories/Properties_Reg.v
theories/TlsSockModel.v
theories/TlsSockSpec.v
theories/TlsSockLemmas.v
theories/Properties_TlsSock.v
theories/TimeModel.v
theories/TimeSpec.v
theories/TimeLemmas.v
theories/Properties_Time.v
theories/RegClientModel.v
theories/RegClientSpec.v
theories/RegClientLemmas.v
theories/Properties_RegClient.v
theories/TimeClientModel.v
theories/TimeClientSpec.v
theories/TimeClientLemmas.v
theories/Properties_TimeClient.v
