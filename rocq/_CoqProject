-Q theories Verif
theories/Base.v
theories/Ctype.v
theories/Encoding.v
theories/EncodingSpec.v
theories/EncodingProofs.v
theories/HexProofs.v
theories/Cstr.v
theories/CstrProofs.v
theories/Inet.v
theories/InetProofs.v
theories/Types.v
theories/Config.v
theories/NumSpec.v
theories/ConfigSpec.v
theories/ConfigProofs.v
theories/ConfigProofs2.v
theories/ConfigProofs3.v
theories/ConfigProofs4.v
theories/Endpoint.v
theories/EndpointProofs.v
theories/PropEncoding.v
theories/PropConfig.v
theories/NlSpec.v
theories/KernelSpec.v
theories/Nl.v
theories/NlProofs.v
theories/NlSet.v
theories/NlSetProofs.v
theories/NlSetProofs2.v
theories/NlSetProofs3.v
theories/NlSetProofs4.v
theories/PropNetlink.v
theories/NlGet.v
theories/NlGetSpec.v
theories/NlGetProofs.v
theories/NlRun.v
theories/NlGetProofs2.v
theories/NlGetProofs3.v
theories/NlGetProofs4.v
theories/PropNetlinkGet.v
theories/TextProofs.v
theories/UapiSpec.v
theories/Uapi.v
theories/UapiProofs.v
theories/UapiProofs2.v
theories/UapiProofs3.v
theories/UapiProofs4.v
theories/PropUapi.v
theories/Setconf.v
theories/SyncSpec.v
theories/SyncProofs.v
theories/SyncProofs2.v
theories/SyncProofs3.v
theories/PropSync.v
theories/Showconf.v
theories/ShowconfProofs.v
theories/ShowconfSpec.v
theories/PropShowconf.v
theories/Terminal.v
theories/TerminalSpec.v
theories/PropTerminal.v
theories/Show.v
theories/ShowSpec.v
theories/ShowProofs.v
theories/ShowProofs2.v
theories/PropShow.v
theories/PropDump.v
theories/Ipc.v
theories/IpcSpec.v
theories/IpcProofs.v
theories/IpcProofs2.v
theories/IpcProofs3.v
theories/PropIpc.v
theories/Keys.v
theories/PropKeys.v
theories/Wg.v
theories/PropCommands.v
theories/CurveSpec.v
theories/Curve.v
theories/CurveField.v
theories/CurveField2.v
theories/Prime25519.v
theories/CurveProofs.v
theories/CurveProofs2.v
theories/PropCurve.v
theories/Bash.v
theories/Quick.v
theories/QuickSpec.v
theories/QuickProofs.v
theories/PropQuick.v
theories/QuickRun.v
theories/QuickRunSpec.v
theories/QuickRunProofs.v
theories/QuickUpProofs.v
theories/PropQuickUp.v
theories/QuickRouteSpec.v
theories/QuickRouteProofs.v
theories/PropQuickRoutes.v
theories/QuickMtuSpec.v
theories/PropQuickMtu.v
theories/QuickDoes.v
theories/QuickFirewallSpec.v
theories/PropQuickFirewall.v
theories/QuickSave.v
theories/QuickSaveSpec.v
theories/QuickSaveProofs.v
theories/PropQuickSave.v
theories/QuickReloadSpec.v
theories/PropQuickReload.v
theories/PropQuickRestore.v

theories/QuickDownSpec.v
theories/QuickDownProofs.v
theories/PropQuickDown.v
theories/PropQuickRules.v
theories/PropQuickDownCases.v
theories/Leak.v
theories/LeakEncoding.v
theories/LeakProofs.v
theories/LeakValue.v
theories/LeakSym.v
theories/PropLeak.v
theories/PropLeak2.v
theories/QuickUndoSpec.v
theories/PropQuickUndo.v
theories/LeakCurve.v
theories/LeakRuns.v
theories/LeakNice.v
theories/LeakCurveOps.v
theories/LeakCurveValue.v
theories/LeakCurveValue2.v
theories/LeakCurveValue3.v
theories/PropLeakCurve.v
theories/NlOpen.v
theories/NlOpenSpec.v
theories/NlOpenProofs.v
theories/PropOpen.v
theories/NlCold.v
theories/PropCold.v
theories/Fields.v
theories/Obsd.v
theories/ObsdSpec.v
theories/ObsdProofs.v
theories/ObsdProofs2.v
theories/BsdGroup.v
theories/BsdGroupSpec.v
theories/PropObsd.v
theories/WinSpec.v
theories/Win.v
theories/WinProofs.v
theories/WinProofs2.v
theories/PropWin.v
theories/WinFindSpec.v
theories/WinFind.v
theories/PropWinFind.v
theories/WinLibc.v
theories/PropWinLibc.v
theories/FbsdSpec.v
theories/Fbsd.v
theories/FbsdProofs.v
theories/PropFbsd.v
theories/Fiat.v
theories/FiatField.v
theories/FiatField2.v
theories/FiatProofs.v
theories/PropFiat.v
theories/QuickMain.v
theories/QuickMainSpec.v
theories/PropQuickMain.v
theories/Sh.v
theories/BsdRoutes.v
theories/BsdRoutesSpec.v
theories/BsdRoutesProofs.v
theories/BsdRoutesProofs2.v
theories/BsdRoutesProofs3.v
theories/PropBsdRoutes.v
theories/FreeQuick.v
theories/FreeSpec.v
theories/FreeProofs.v
theories/FreeProofs2.v
theories/FreeProofs3.v
theories/FreeProofs4.v
theories/FreeProofs5.v
theories/FreeProofs6.v
theories/PropFree.v
theories/PropFreeMain.v
theories/PropFreeCases.v
theories/LeakFiat.v
theories/LeakFiatOps.v
theories/LeakFiatValue.v
theories/LeakFiatValue2.v
theories/PropLeakFiat.v
theories/OpenQuick.v
theories/ShGoes.v
theories/OpenSpec.v
theories/OpenProofs.v
theories/OpenProofs2.v
theories/OpenProofs3.v
theories/OpenProofs4.v
theories/PropOpenQuick.v
theories/PropOpenMain.v
theories/PropOpenCases.v
theories/DarDns.v
theories/DarDnsSpec.v
theories/DarDnsProofs.v
theories/DarDnsProofs2.v
theories/DarDnsProofs3.v
theories/DarDnsProofs4.v
theories/PropDarDns.v
theories/DarQuick.v
theories/DarSpec.v
theories/DarProofs.v
theories/DarProofs2.v
theories/DarProofs3.v
theories/PropDarQuick.v
theories/PropDarMain.v
theories/PropDarCases.v
theories/AndUsers.v
theories/AndSpec.v
theories/AndProofs.v
theories/PropAndUsers.v
theories/AndOptions.v
theories/AndProofs2.v
theories/PropAndOptions.v
theories/AndDns.v
theories/AndProofs3.v
theories/PropAndDns.v
theories/AndIf.v
theories/PropAndIf.v
theories/AndQuick.v
theories/AndUpSpec.v
theories/PropAndUp.v
theories/WinInit.v
theories/PropWinInit.v
theories/AndMain.v
theories/PropAndMain.v
