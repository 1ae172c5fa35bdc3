-Q theories Verif
theories/Base.v
theories/Serial.v
theories/Iana.v
theories/Crypto.v
theories/Ext.v
theories/Msg.v
theories/Hkdf.v
theories/Cipher.v
theories/Kex.v
theories/Sig.v
theories/Ocsp.v
theories/Transcript.v
theories/Config.v
theories/Conn.v
theories/OcspCache.v
theories/Utils.v
theories/Wrapper.v
theories/Toy.v
theories/P_Base.v
theories/S_Serial.v
theories/P_Serial.v
theories/P_Serial2.v
theories/T_Serial.v
theories/S_Utils.v
theories/P_Toy.v
theories/P_Hkdf.v
theories/T_Hkdf.v
theories/P_Utils.v
theories/T_Utils.v
theories/S_Hist.v
theories/S_Conn.v
theories/P_Monad.v
theories/P_Frame.v
theories/P_Rec.v
theories/P_Buf.v
theories/T_Buf.v
theories/S_Send.v
theories/P_Send.v
theories/P_Hist.v
theories/P_Wire.v
theories/T_Send.v
theories/S_Nonce.v
theories/P_Nonce.v
theories/P_Carry.v
theories/T_Nonce.v
theories/P_Wp.v
theories/S_State.v
theories/P_State.v
theories/T_State.v
theories/S_Speak.v
theories/P_Speak.v
theories/T_Speak.v
theories/S_Alert.v
theories/P_Alert.v
theories/T_Alert.v
theories/S_Close.v
theories/P_Close.v
theories/T_Close.v
theories/S_Keys.v
theories/P_Keys.v
theories/T_Keys.v
theories/S_Ocsp.v
theories/P_Ocsp.v
theories/S_Auth.v
theories/P_Tr.v
theories/P_Auth.v
theories/P_Client.v
theories/P_Client2.v
theories/T_Client.v
theories/P_Count.v
theories/S_Server.v
theories/P_Neg.v
theories/P_Flight.v
theories/P_Server.v
theories/P_Server2.v
theories/P_Retry.v
theories/P_Refuse.v
theories/P_Order.v
theories/T_Server.v
theories/S_Kex.v
theories/P_Kex.v
theories/T_Kex.v
theories/S_Wrap.v
theories/P_Wrap.v
theories/T_Wrap.v
theories/S_Cache.v
theories/P_Cache.v
theories/T_Cache.v
theories/T_Ocsp.v
theories/S_Deliver.v
theories/P_Deliver.v
theories/T_Deliver.v
theories/S_Codec.v
theories/P_Codec.v
theories/T_Codec.v
theories/S_Layout.v
theories/P_Layout.v
theories/T_Layout.v
theories/S_Fault.v
theories/P_Fault.v
theories/T_Fault.v
theories/S_Sched.v
theories/P_Sched.v
theories/T_Sched.v
theories/P_Blind.v
theories/S_Split.v
theories/P_Split.v
theories/T_Split.v
theories/S_Honest.v
theories/P_Honest.v
theories/P_Honest2.v
theories/P_Honest3.v
theories/P_Honest4.v
theories/P_Honest5.v
theories/P_Honest6.v
theories/P_Honest7.v
theories/P_Honest8.v
theories/P_Honest9.v
theories/P_Honest10.v
theories/P_Honest11.v
theories/P_HonestToy.v
theories/T_Honest.v
theories/P_Pieces.v
theories/P_Honest12.v
theories/P_Mute.v
theories/S_Net.v
theories/P_Net.v
theories/P_Net2.v
theories/P_Net3.v
theories/T_Net.v
theories/S_Integrity.v
theories/P_Integ.v
theories/P_Integ2.v
theories/P_Integ3.v
theories/P_Integ4.v
theories/P_IntegToy.v
theories/T_Integrity.v
theories/S_Agree.v
theories/P_Agree.v
theories/P_AgreeToy.v
theories/T_Agree.v
theories/S_Veil.v
theories/P_Veil.v
theories/P_VeilToy.v
theories/T_Veil.v
theories/S_Entire.v
theories/P_Entire.v
theories/P_Entire2.v
theories/P_Entire3.v
theories/P_EntireToy.v
theories/T_Entire.v
theories/P_Alert2.v
theories/S_Heed.v
theories/P_Heed.v
theories/P_Heed2.v
theories/S_Session.v
theories/P_Session.v
theories/P_HeedToy.v
theories/T_Session.v
theories/S_Chat.v
theories/P_Chat.v
theories/P_Chat2.v
theories/T_Chat.v
theories/P_Eof.v
theories/T_Eof.v
theories/S_Vouch.v
theories/P_Vouch.v
theories/P_Vouch2.v
theories/P_VouchToy.v
theories/T_Vouch.v
theories/OcspThreads.v
theories/S_Threads.v
theories/P_Threads.v
theories/P_ThreadsToy.v
theories/T_Threads.v
theories/Registry.v
theories/S_Registry.v
theories/P_Registry.v
theories/P_RegistryToy.v
theories/T_Registry.v
theories/S_Memory.v
theories/P_Memory.v
theories/T_Memory.v
theories/KeyLog.v
theories/S_KeyLog.v
theories/P_KeyLog.v
theories/P_KeyLog2.v
theories/P_KeyLog3.v
theories/P_Inner.v
theories/T_KeyLog.v
theories/S_Pack.v
theories/P_Pack.v
theories/P_Pack2.v
theories/P_PackToy.v
theories/T_Pack.v
theories/S_Answer.v
theories/P_Answer.v
theories/S_Hello.v
theories/P_Hello.v
theories/P_Answer2.v
theories/P_HelloToy.v
theories/T_Answer.v
theories/T_Hello.v
theories/S_Grease.v
theories/P_Grease.v
theories/P_GreaseToy.v
theories/T_Grease.v
theories/Examples.v
theories/S_Enter.v
theories/P_Enter.v
theories/T_Enter.v
theories/S_Http.v
theories/P_Http.v
theories/T_Http.v
theories/S_Ccs.v
theories/P_Ccs.v
theories/P_Ccs2.v
theories/T_Ccs.v
theories/P_Limit.v
theories/P_LimitToy.v
theories/T_Limit.v
theories/Main.v
theories/S_Main.v
theories/P_Talk.v
theories/P_Talk2.v
theories/P_Talk3.v
theories/P_Notify.v
theories/P_Talk4.v
theories/P_Main.v
theories/P_Main2.v
theories/T_Main.v
theories/S_Half.v
theories/P_Half.v
theories/T_Half.v
theories/S_Terms.v
theories/P_Terms.v
theories/P_Terms2.v
theories/T_Terms.v
theories/S_Down.v
theories/P_Down.v
theories/P_Down2.v
theories/P_Down3.v
theories/T_Down.v
theories/S_Lasts.v
theories/P_Lasts.v
theories/P_Lasts2.v
theories/T_Lasts.v
theories/AlertReg.v
theories/S_AlertReg.v
theories/P_AlertReg.v
theories/T_AlertReg.v
theories/P_Ccm.v
theories/T_Ccm.v
theories/S_Secret.v
theories/P_Secret.v
theories/P_Secret2.v
theories/P_SecretToy.v
theories/T_Secret.v
theories/Early.v
theories/S_Early.v
theories/P_Early.v
theories/P_Early2.v
theories/P_Early3.v
theories/T_Early.v
theories/S_Match.v
theories/P_Match.v
theories/T_Match.v
theories/Attr.v
theories/S_Attr.v
theories/P_Attr.v
theories/T_Attr.v
theories/Real.v
theories/P_Real.v
theories/T_Real.v
theories/Sio.v
theories/S_Sio.v
theories/P_Sio.v
theories/T_Sio.v
theories/Froz.v
theories/S_Froz.v
theories/P_Froz.v
theories/T_Froz.v
theories/Suites.v
theories/S_Suites.v
theories/P_Suites.v
theories/T_Suites.v
theories/S_Shuffle.v
theories/P_Shuffle.v
theories/P_Shuffle2.v
theories/T_Shuffle.v
theories/TrApi.v
theories/S_TrApi.v
theories/P_TrApi.v
theories/T_TrApi.v
theories/Aia.v
theories/S_Aia.v
theories/P_Aia.v
theories/T_Aia.v
theories/Crl.v
theories/S_Crl.v
theories/P_Crl.v
theories/T_Crl.v
theories/Verify.v
theories/S_Verify.v
theories/P_Verify.v
theories/T_Verify.v
theories/S_Asked.v
theories/P_Asked.v
theories/T_Asked.v
theories/S_OcspX.v
theories/P_OcspX.v
theories/T_OcspX.v
theories/Bodies.v
theories/S_Bodies.v
theories/P_Bodies.v
theories/T_Bodies.v
theories/S_Fetch.v
theories/P_Fetch.v
theories/T_Fetch.v
theories/P_Align.v
theories/T_Align.v
theories/P_Path.v
theories/T_Path.v
