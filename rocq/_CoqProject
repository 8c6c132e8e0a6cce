-Q theories Verif
theories/Base.v
theories/M_Util.v
theories/M_Hid.v
theories/M_HidConc.v
theories/S_Hid.v
theories/S_HidConc.v
theories/P_Hid1.v
theories/P_Hid2.v
theories/P_Hid3.v
theories/P_Hid4.v
theories/P_HidConc.v
theories/C_Hid.v
theories/M_ReqBuf.v
theories/M_Usb.v
theories/M_Usbip.v
theories/S_ReqBuf.v
theories/S_Usb.v
theories/S_Usbip.v
theories/S_UsbipSys.v
theories/P_ReqBuf.v
theories/P_Usb.v
theories/P_Usbip1.v
theories/P_Usbip2.v
theories/P_Usbip3.v
theories/C_Usb.v
theories/C_Usbip.v
theories/M_Utf8.v
theories/M_Cbor.v
theories/S_Cbor.v
theories/P_Cbor.v
theories/P_Cbor2.v
theories/P_Cbor3.v
theories/M_Crypto.v
theories/S_Crypto.v
theories/P_Crypto.v
theories/M_Cose.v
theories/S_Cose.v
theories/P_Cose.v
theories/P_Cose2.v
theories/P_Cose3.v
theories/P_Cose4.v
theories/C_Cose.v
theories/M_Str.v
theories/M_Json.v
theories/P_Json.v
theories/M_State.v
theories/S_State.v
theories/P_State.v
theories/P_State2.v
theories/C_State.v
theories/M_Client.v
theories/M_Ctap.v
theories/M_U2f.v
theories/S_Client.v
theories/P_Client.v
theories/S_Ctap.v
theories/P_Ctap.v
theories/P_Ctap2.v
theories/P_Ctap3.v
theories/S_CtapReq.v
theories/P_CtapReq.v
theories/P_CtapReq2.v
theories/S_Pin.v
theories/P_Pin.v
theories/P_Ctap4.v
theories/P_Toy.v
theories/S_Fold.v
theories/P_Fold.v
theories/C_Ctap.v
theories/S_U2f.v
theories/P_U2f.v
theories/P_U2f2.v
theories/C_U2f.v
theories/S_Vault.v
theories/P_Vault.v
theories/C_Client.v
theories/M_History.v
theories/S_History.v
theories/P_History.v
theories/P_History2.v
theories/M_Race.v
theories/P_History3.v
theories/P_ToyHist.v
theories/C_History.v
theories/M_Log.v
theories/S_Log.v
theories/P_Log.v
theories/C_Log.v
theories/M_Demo.v
theories/S_Demo.v
theories/P_Torn.v
theories/P_Demo.v
theories/C_Demo.v
theories/M_Device.v
theories/S_Device.v
theories/P_Device1.v
theories/P_Device2.v
theories/P_Device3.v
theories/P_Device4.v
theories/P_Device5.v
theories/C_Device.v
theories/M_Overlap.v
theories/S_Overlap.v
theories/P_Overlap1.v
theories/P_Overlap2.v
theories/P_Overlap3.v
theories/P_Overlap4.v
theories/P_Overlap5.v
theories/P_Overlap6.v
theories/P_Overlap7.v
theories/P_Overlap8.v
theories/C_Overlap.v
theories/M_PinRace.v
theories/S_PinRace.v
theories/P_PinRace.v
theories/P_PinAlone.v
theories/M_VaultRace.v
theories/S_VaultRace.v
theories/P_VaultRace.v
theories/C_Races.v
theories/M_Threads.v
theories/S_Threads.v
theories/P_Threads1.v
theories/P_Threads2.v
theories/P_Threads3.v
theories/P_Threads4.v
theories/P_Threads5.v
theories/C_Threads.v
theories/M_Mac.v
theories/S_Mac.v
theories/P_Mac1.v
theories/P_Mac2.v
theories/P_Mac3.v
theories/P_Mac4.v
theories/C_Mac.v
theories/M_X509.v
theories/S_X509.v
theories/S_X509Dev.v
theories/P_X509a.v
theories/P_X509b.v
theories/P_X509c.v
theories/P_X509d.v
theories/P_X509e.v
theories/P_X509f.v
theories/P_X509g.v
theories/C_X509.v
theories/M_Logged.v
theories/S_Logged.v
theories/P_Logged.v
theories/P_Logged2.v
theories/M_Console.v
theories/P_Console.v
theories/C_Logged.v
theories/M_Procs.v
theories/S_Procs.v
theories/P_Procs1.v
theories/P_Procs2.v
theories/C_Procs.v
theories/M_Stdin.v
theories/S_Stdin.v
theories/P_Stdin.v
theories/C_Stdin.v
theories/M_DemoClient.v
theories/S_DemoKey.v
theories/P_DemoKey.v
theories/C_DemoKey.v
theories/M_Write.v
theories/S_Write.v
theories/P_Write1.v
theories/P_Write2.v
theories/P_Write3.v
theories/P_Write4.v
theories/C_Write.v
theories/S_Secret.v
theories/P_Secret.v
theories/C_Secret.v
theories/M_MapRace.v
theories/S_MapRace.v
theories/P_MapRace.v
theories/C_MapRace.v
theories/S_Rest.v
theories/P_Rest.v
theories/C_Rest.v
theories/S_Enum.v
theories/P_Enum.v
theories/C_Enum.v
theories/P_Wrap.v
theories/C_Wrap.v
theories/C_LogHeld.v
theories/M_LogRace.v
theories/S_LogRace.v
theories/P_LogRace.v
theories/C_LogRace.v
theories/P_CborLocal.v
theories/M_Tools.v
theories/P_Trail.v
theories/C_Trail.v
theories/M_Win.v
theories/S_Win.v
theories/P_Win.v
theories/C_Win.v
theories/M_WinFwd.v
theories/S_WinFwd.v
theories/P_WinFwd.v
theories/P_WinRun.v
theories/P_WinRep.v
theories/P_WinMem.v
theories/C_WinFwd.v
theories/M_WinDrv.v
theories/S_WinDrv.v
theories/P_WinDrv.v
theories/P_WinDrv2.v
theories/P_WinOnce.v
theories/C_WinDrv.v
theories/P_WinAns.v
theories/P_WinAns2.v
theories/P_WinAns3.v
theories/C_WinAns.v
theories/P_WinGo1.v
theories/S_WinGo.v
theories/P_WinGo2.v
theories/C_WinGo.v
theories/M_WinPair.v
theories/S_WinPair.v
theories/P_WinPair.v
theories/P_WinPair2.v
theories/P_WinPair3.v
theories/C_WinPair.v
theories/M_LogSet.v
theories/S_LogSet.v
theories/P_LogSet.v
theories/C_LogSet.v
theories/M_HidLog.v
theories/S_HidLog.v
theories/P_HidLog.v
theories/C_HidLog.v
theories/M_WinOut.v
theories/S_WinOut.v
theories/P_WinOut.v
theories/C_WinOut.v
theories/M_UsbLog.v
theories/S_UsbLog.v
theories/P_UsbLog.v
theories/C_UsbLog.v
theories/S_HidMem.v
theories/P_HidMem.v
theories/C_HidMem.v
theories/S_UsbipMem.v
theories/P_UsbipMem.v
theories/C_UsbipMem.v
theories/S_Ticks.v
theories/P_Ticks.v
theories/C_Ticks.v
theories/S_Secret2.v
theories/P_Secret2.v
theories/C_Secret2.v
theories/S_Replay.v
theories/P_Replay.v
theories/C_Replay.v
theories/S_Newest.v
theories/P_Newest.v
theories/C_Newest.v
theories/S_Removal.v
theories/P_Removal.v
theories/C_Removal.v
theories/S_Account.v
theories/P_Account.v
theories/C_Account.v
theories/S_Handle.v
theories/P_Handle.v
theories/C_Handle.v
