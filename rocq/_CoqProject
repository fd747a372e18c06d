-Q theories Verif

theories/Base.v
theories/BaseFacts.v
theories/BytesModel.v
theories/BytesSpec.v
theories/BytesFacts.v
theories/BytesFacts2.v
theories/CipherModel.v
theories/CipherSpec.v
theories/CipherSpec2.v
theories/CipherFacts.v
theories/CipherFacts2.v
theories/CipherFacts3.v
theories/MiscModel.v
theories/MiscSpec.v
theories/MiscFacts.v
theories/Toy.v
theories/Properties_Cipher.v
theories/Properties_Bytes.v
theories/Properties_Misc.v
theories/PwModel.v
theories/PwSpec.v
theories/PwFacts.v
theories/Properties_Pw.v
theories/ChModel.v
theories/ChSpec.v
theories/ChFacts.v
theories/ChFacts2.v
theories/Properties_Ch.v
theories/HeaderModel.v
theories/HeaderSpec.v
theories/HeaderFacts.v
theories/HeaderFacts2.v
theories/HeaderFacts3.v
theories/HeaderFacts4.v
theories/HeaderFacts5.v
theories/HeaderFacts6.v
theories/HeaderFacts7.v
theories/HeaderFacts8.v
theories/HeaderFacts9.v
theories/HeaderFacts10.v
theories/HeaderFacts11.v
theories/Properties_Header.v
theories/FileModel.v
theories/ApiModel.v
theories/ApiSpec.v
theories/FileFacts.v
theories/FileFacts2.v
theories/Properties_File.v
theories/ApiFacts.v
theories/ApiFacts2.v
theories/ApiFacts3.v
theories/ApiFacts4.v
theories/ApiFacts5.v
theories/ApiFacts6.v
theories/ApiFacts7.v
theories/ApiFacts8.v
theories/ApiFacts9.v
theories/Properties_Api.v
theories/HeapModel.v
theories/HeapSpec.v
theories/HeapFacts.v
theories/Properties_Heap.v
theories/SecSpec.v
theories/SecFacts.v
theories/Properties_Sec.v
theories/TrimSpec.v
theories/TrimFacts.v
theories/Properties_Trim.v
theories/ApiSpec2.v
theories/ApiFacts10.v
theories/ApiFacts11.v
theories/ApiFacts12.v
theories/Properties_Api2.v
theories/RefSpec.v
theories/RefFacts.v
theories/RefSpec2.v
theories/RefFacts2.v
theories/RefFacts3.v
theories/RefFacts4.v
theories/RefFacts5.v
theories/Properties_Ref.v
theories/RndSpec.v
theories/RndFacts.v
theories/RndFacts2.v
theories/Properties_Rnd.v
theories/SysSpec.v
theories/SysFacts.v
theories/EmptyFacts.v
theories/Properties_Sys.v
theories/TextModel.v
theories/TextSpec.v
theories/TextFacts.v
theories/Properties_Text.v
theories/PwDataModel.v
theories/PwDataSpec.v
theories/PwDataFacts.v
theories/Properties_PwData.v
theories/AppModel.v
theories/AppSpec.v
theories/AppFacts.v
theories/Properties_App.v
theories/PtrModel.v
theories/PtrFacts.v
theories/Properties_Ptr.v
theories/EnumModel.v
theories/EnumSpec.v
theories/EnumFacts.v
theories/Properties_Enum.v
theories/InterModel.v
theories/InterSpec.v
theories/StreamFacts.v
theories/InterFacts.v
theories/InterFacts2.v
theories/InterFacts3.v
theories/InterFacts4.v
theories/Properties_Inter.v
theories/TornSpec.v
theories/TornFacts.v
theories/Properties_Torn.v
theories/FaultModel.v
theories/FaultSpec.v
theories/FaultFacts.v
theories/Properties_Fault.v
theories/ObjSpec.v
theories/ObjFacts.v
theories/Properties_Obj.v
theories/ResultModel.v
theories/ResultSpec.v
theories/ResultFacts.v
theories/Properties_Result.v
theories/TraceSpec.v
theories/TraceFacts.v
theories/Properties_Trace.v
theories/LeakSpec.v
theories/LeakFacts.v
theories/Properties_Leak.v
theories/HandlerModel.v
theories/HandlerSpec.v
theories/HandlerFacts.v
theories/Properties_Handler.v
theories/WorkModel.v
theories/WorkSpec.v
theories/WorkFacts.v
theories/WorkFacts2.v
theories/Properties_Work.v
theories/TamperSpec.v
theories/TamperFacts.v
theories/Properties_Tamper.v
theories/LogModel.v
theories/LogSpec.v
theories/LogFacts1.v
theories/LogFacts2.v
theories/LogFacts3.v
theories/LogFacts4.v
theories/LogFacts5.v
theories/LogFacts6.v
theories/LogFacts7.v
theories/LogFacts8.v
theories/LogFacts9.v
theories/LogFacts10.v
theories/LogFacts11.v
theories/LogSpec2.v
theories/LogFacts12.v
theories/Properties_Log.v
theories/LifeModel.v
theories/LifeSpec.v
theories/LifeFacts1.v
theories/LifeFacts2.v
theories/LifeFacts3.v
theories/LifeFacts4.v
theories/LifeFacts5.v
theories/LifeFacts6.v
theories/LifeFacts7.v
theories/LifeFacts8.v
theories/Properties_Life.v
theories/MsgModel.v
theories/MsgSpec.v
theories/MsgFacts1.v
theories/MsgFacts2.v
theories/MsgFacts3.v
theories/MsgFacts4.v
theories/Properties_Msg.v
theories/CworkModel.v
theories/CworkSpec.v
theories/CworkFacts1.v
theories/CworkFacts2.v
theories/CworkFacts3.v
theories/CworkFacts4.v
theories/Properties_Cwork.v
theories/OrderModel.v
theories/OrderSpec.v
theories/OrderFacts.v
theories/OrderFacts2.v
theories/OrderFacts3.v
theories/Properties_Order.v
theories/HeapModel2.v
theories/HeapSpec2.v
theories/HeapFacts2.v
theories/HeapFacts3.v
theories/LifeFacts9.v
theories/Properties_Left.v
theories/Properties_Oom.v
theories/CountSpec.v
theories/CountFacts.v
theories/CountFacts2.v
theories/Properties_Count.v
theories/QuerySpec.v
theories/QueryFacts.v
theories/QueryFacts2.v
theories/QueryFacts3.v
theories/QueryFacts4.v
theories/QueryFacts5.v
theories/QueryFacts6.v
theories/Properties_Query.v
theories/StolenSpec.v
theories/StolenFacts.v
theories/Properties_Stolen.v
theories/DocSpec.v
theories/DocFacts.v
theories/Properties_Doc.v
theories/EqModel.v
theories/EqFacts.v
theories/Properties_Eq.v
theories/TimeModel.v
theories/TimeSpec.v
theories/TimeFacts.v
theories/Properties_Time.v
theories/EditSpec.v
theories/EditFacts.v
theories/Properties_Edit.v
theories/SaltSpec.v
theories/SaltFacts.v
theories/Properties_Salt.v
theories/PolicyFacts.v
theories/Properties_Policy.v
theories/DecModel.v
theories/DecSpec.v
theories/DecFacts.v
theories/Properties_Dec.v
theories/MemSpec.v
theories/MemFacts.v
theories/MemFacts2.v
theories/Properties_Mem.v
theories/CodeSpec.v
theories/CodeFacts.v
theories/CodeFacts2.v
theories/Properties_Code.v
theories/LimitFacts.v
theories/Properties_Limit.v
theories/BuildSpec.v
theories/BuildFacts.v
theories/Properties_Build.v
theories/LackSpec.v
theories/LackFacts.v
theories/LackFacts2.v
theories/Properties_Lack.v
theories/StrSpec.v
theories/StrFacts.v
theories/Properties_Str.v
theories/CanonSpec.v
theories/CanonFacts.v
theories/Properties_Canon.v
theories/Sha2.v
theories/ShaFacts.v
theories/Properties_Sha.v
theories/TestLib.v
theories/Tests_Bytes.v
theories/Tests_Units.v
theories/Tests_Known.v
theories/Tests_Header.v
theories/Tests_Api.v
theories/LogSpec3.v
theories/LogFacts13.v
theories/LogSpec4.v
theories/LogFacts14.v
theories/LogFacts15.v
theories/Properties_Log2.v
