-Q theories Verif
theories/GoBase.v
theories/Sort_Model.v
theories/Sort_Proofs.v
theories/Glob_Model.v
theories/Glob_Spec.v
theories/Glob_Proofs.v
theories/GlobExact_Proofs.v
theories/Glob_Props.v
theories/Pattern_Model.v
theories/Pattern_Spec.v
theories/Pattern_Proofs.v
theories/Priority_Spec.v
theories/Priority_Proofs.v
theories/Pattern_Props.v
theories/Url_Model.v
theories/Url_Spec.v
theories/Url_Proofs.v
theories/Url_Props.v
theories/Match_Model.v
theories/Search_Proofs.v
theories/Trie_Proofs.v
theories/Wide_Proofs.v
theories/WideFound_Proofs.v
theories/Router_Model.v
theories/Routing_Spec.v
theories/Covers_Proofs.v
theories/Grow_Proofs.v
theories/Routes_Proofs.v
theories/Dispatch_Proofs.v
theories/Routing_Proofs.v
theories/Witness_Proofs.v
theories/Routing_Props.v
theories/Complete_Proofs.v
theories/Choice_Spec.v
theories/Choice_Proofs.v
theories/ChoiceWitness_Proofs.v
theories/Choice_Props.v
theories/Auth_Model.v
theories/Auth_Spec.v
theories/Auth_Proofs.v
theories/AuthText_Proofs.v
theories/Auth_Props.v
theories/Chain_Model.v
theories/Serve_Model.v
theories/Chain_Spec.v
theories/Chain_Proofs.v
theories/Serve_Proofs.v
theories/Chain_Props.v
theories/Mux_Model.v
theories/Mux_Spec.v
theories/Mux_Proofs.v
theories/Mux_Props.v
theories/Http_Model.v
theories/Cache_Model.v
theories/Csrf_Model.v
theories/Csrf_Spec.v
theories/Csrf_Proofs.v
theories/CsrfConc_Proofs.v
theories/Csrf_Props.v
theories/OAuth_Model.v
theories/OAuth_Spec.v
theories/OAuth_Proofs.v
theories/OAuthUrl_Proofs.v
theories/OAuth_Props.v
theories/Resp_Model.v
theories/Resp_Spec.v
theories/Sse_Spec.v
theories/Resp_Proofs.v
theories/RespBody_Proofs.v
theories/Sse_Proofs.v
theories/RespMisc_Proofs.v
theories/RespFail_Proofs.v
theories/Resp_Props.v
theories/Cors_Model.v
theories/Cors_Spec.v
theories/Cors_Proofs.v
theories/CorsMisc_Proofs.v
theories/CorsCases_Proofs.v
theories/Cors_Props.v
theories/Pool_Model.v
theories/Pool_Spec.v
theories/Pool_Proofs.v
theories/RoutePool_Model.v
theories/RoutePool_Spec.v
theories/RoutePool_Proofs.v
theories/RouteProc_Proofs.v
theories/RespPool_Model.v
theories/RespPool_Spec.v
theories/RespPool_Proofs.v
theories/PoolCases_Proofs.v
theories/Pool_Props.v
theories/App_Model.v
theories/App_Spec.v
theories/AppRoute_Proofs.v
theories/App_Proofs.v
theories/AppMid_Proofs.v
theories/AppCases_Proofs.v
theories/AppWire_Spec.v
theories/AppWire_Proofs.v
theories/AppExact_Proofs.v
theories/AppWhole_Proofs.v
theories/App_Props.v
theories/Inner_Spec.v
theories/Inner_Proofs.v
theories/InnerMatch_Proofs.v
theories/InnerRoute_Proofs.v
theories/InnerCases_Proofs.v
theories/Inner_Props.v
theories/Json_Model.v
theories/Json_Spec.v
theories/JsonUtf8_Proofs.v
theories/JsonEnc_Proofs.v
theories/JsonRead_Proofs.v
theories/JsonErr_Model.v
theories/JsonErr_Spec.v
theories/JsonErr_Proofs.v
theories/Dump_Model.v
theories/Dump_Spec.v
theories/Dump_Proofs.v
theories/DumpCases_Proofs.v
theories/Json_Props.v
theories/Dump_Props.v
theories/CacheRace_Model.v
theories/CacheRace_Spec.v
theories/CacheRace_Proofs.v
theories/CacheRace_Props.v
theories/Session_Model.v
theories/Session_Spec.v
theories/Session_Proofs.v
theories/Session_Props.v
theories/Torn_Model.v
theories/Torn_Proofs.v
theories/Torn_Props.v
theories/OAuthWire_Model.v
theories/OAuthWire_Spec.v
theories/OAuthWire_Proofs.v
theories/OAuthWire_Props.v
theories/Stream_Model.v
theories/Stream_Spec.v
theories/Stream_Proofs.v
theories/Stream_Props.v
theories/EvtGen_Model.v
theories/EvtGen_Spec.v
theories/EvtGen_Proofs.v
theories/EvtGen_Props.v
theories/Example_Model.v
theories/Example_Spec.v
theories/Example_Proofs.v
theories/ExampleAns_Proofs.v
theories/ExampleCase_Proofs.v
theories/Example_Props.v
theories/Spin_Spec.v
theories/Spin_Proofs.v
theories/SpinCase_Proofs.v
theories/Narrow_Spec.v
theories/Narrow_Proofs.v
theories/NarrowCase_Proofs.v
theories/Filled_Spec.v
theories/Filled_Proofs.v
theories/Order_Proofs.v
theories/Order_Props.v
theories/Login_Model.v
theories/Login_Spec.v
theories/Login_Proofs.v
theories/LoginAns_Proofs.v
theories/LoginExa_Proofs.v
theories/LoginCase_Proofs.v
theories/LoginHome_Proofs.v
theories/LoginJoin_Proofs.v
theories/Login_Props.v
theories/Ends_Proofs.v
theories/Many_Proofs.v
theories/Rand_Model.v
theories/Rand_Spec.v
theories/Rand_Proofs.v
theories/Rand_Props.v
theories/Zip_Model.v
theories/Zip_Spec.v
theories/Zip_Proofs.v
theories/Zip_Props.v
theories/Err_Model.v
theories/Err_Spec.v
theories/Err_Proofs.v
theories/Err_Props.v
theories/Files_Model.v
theories/Files_Spec.v
theories/Files_Proofs.v
theories/FilesApp_Proofs.v
theories/Files_Props.v
theories/Recover_Spec.v
theories/Recover_Proofs.v
theories/Recover_Props.v
theories/Ctor_Model.v
theories/Ctor_Spec.v
theories/Ctor_Proofs.v
theories/Ctor_Props.v
theories/Config_Model.v
theories/Config_Spec.v
theories/Config_Proofs.v
theories/Config_Props.v
theories/JsonUser_Spec.v
theories/JsonUser_Proofs.v
theories/JsonUser_Props.v
theories/Loose_Spec.v
theories/Loose_Proofs.v
theories/Limits_Proofs.v
theories/Limits_Props.v
theories/Irrelevant_Proofs.v
theories/Irrelevant_Props.v
theories/Origin_Spec.v
theories/Origin_Proofs.v
theories/Origin_Props.v
theories/Redirect_Model.v
theories/Redirect_Spec.v
theories/Redirect_Proofs.v
theories/RedirectSite_Proofs.v
theories/Redirect_Props.v
theories/RedirectLogin_Proofs.v
theories/Cookie_Model.v
theories/Cookie_Spec.v
theories/Cookie_Proofs.v
theories/CookieText_Proofs.v
theories/CookieBack_Proofs.v
theories/Cookie_Props.v
theories/RegRace_Model.v
theories/RegRace_Spec.v
theories/RegRace_Proofs.v
theories/RegSteps_Proofs.v
theories/RegAnswer_Proofs.v
theories/RegRace_Props.v
theories/CookieDump_Model.v
theories/CookieDump_Spec.v
theories/CookieDump_Proofs.v
theories/CookieDump_Props.v
theories/RedirectPage_Proofs.v
theories/LongPattern_Proofs.v
theories/HandleRace_Model.v
theories/HandleRace_Spec.v
theories/HandleRace_Proofs.v
theories/HandleRace_Props.v
theories/JsonDec_Model.v
theories/JsonDec_Spec.v
theories/JsonDecStr_Proofs.v
theories/JsonDecNum_Proofs.v
theories/JsonDec_Proofs.v
theories/JsonDecApp_Proofs.v
theories/JsonDec_Props.v
theories/RedirectRoot_Proofs.v
theories/VarTime_Model.v
theories/VarTime_Spec.v
theories/VarTime_Proofs.v
theories/VarTime_Props.v
theories/Work_Model.v
theories/Work_Spec.v
theories/Work_Proofs.v
theories/Work_Props.v
theories/WorkAsk_Proofs.v
theories/GlobWork_Model.v
theories/GlobWork_Proofs.v
theories/GlobWork_Props.v
theories/GlobOrder_Proofs.v
theories/RouteWork_Model.v
theories/RouteWork_Spec.v
theories/RouteWork_Proofs.v
theories/RouteWork_Props.v
theories/Level_Proofs.v
theories/Level_Props.v
theories/HeaderName_Proofs.v
theories/HeaderName_Props.v
