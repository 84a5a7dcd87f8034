-Q theories Verif

theories/Base.v
theories/Utf8.v
theories/Moji.v
theories/Color.v
theories/Prompt.v
theories/Buffer.v
theories/Commands.v
theories/KeyMap.v
theories/Session.v
theories/MojiFacts.v
theories/Abs.v
theories/AbsRef.v
theories/AbsSess.v
theories/AbsSafe.v
theories/AbsInv.v
theories/Safe.v
theories/SafeSess.v
theories/Plain.v
theories/Spec.v
theories/Sample.v
theories/TextFacts.v
theories/Reach.v
theories/SafetyFacts.v
theories/PText.v
theories/PSafety.v
theories/CmdFacts.v
theories/WordFacts.v
theories/EditFacts.v
theories/EditProps.v
theories/LineInv.v
theories/EditMore.v
theories/EditWitness.v
theories/PEdit.v
theories/SessFacts.v
theories/HistFacts.v
theories/SearchFacts.v
theories/PredictFacts.v
theories/SessProps.v
theories/JoinFacts.v
theories/PSession.v
theories/SpecAnyKeys.v
theories/AnyKeys.v
theories/PAnyKeys.v
theories/UndoFacts.v
theories/UndoSess.v
theories/SpecUndo.v
theories/UndoVia.v
theories/PUndo.v
theories/WidthCache.v
theories/Writer.v
theories/SpecLib.v
theories/ColorFacts.v
theories/PColor.v
theories/Names.v
theories/KeyInput.v
theories/KeyFacts.v
theories/PilotFacts.v
theories/PKeys.v
theories/SpecNames.v
theories/NameFacts.v
theories/PNames.v
theories/SpecTerm.v
theories/SpecPaint.v
theories/TermFacts.v
theories/PaintFacts.v
theories/TermSample.v
theories/PPaint.v
theories/SelectorFacts.v
theories/PSelector.v
theories/SpecIndep.v
theories/IndepFacts.v
theories/IndepSample.v
theories/PIndep.v
theories/Script.v
theories/SpecScript.v
theories/ScriptFacts.v
theories/CompUndo.v
theories/ScriptSample.v
theories/SpecTabScript.v
theories/TabScript.v
theories/TabScriptSample.v
theories/PScript.v
theories/Repl.v
theories/SpecRepl.v
theories/ReplFacts.v
theories/ReplSample.v
theories/PRepl.v
theories/Terminal.v
theories/SpecTty.v
theories/TtyFacts.v
theories/TtyErrFacts.v
theories/PTty.v
theories/SpecEtiq.v
theories/EtiqFacts.v
theories/PEtiq.v
theories/Prompts.v
theories/SpecPrompts.v
theories/PromptsFacts.v
theories/PPrompts.v
theories/PromptFacts.v
theories/PPrompt.v
theories/Sched.v
theories/SpecSched.v
theories/SchedFacts.v
theories/SchedTabs.v
theories/Life.v
theories/OutFacts.v
theories/SpecLife.v
theories/LifeFacts.v
theories/Restore.v
theories/RestoreFacts.v
theories/PRestore.v
theories/PSched.v
theories/PLife.v
theories/Completion.v
theories/SpecComp.v
theories/CompFacts.v
theories/CompSafe.v
theories/CompFiles.v
theories/CompProps.v
theories/CompSample.v
theories/SpecCompTabs.v
theories/CompTabs.v
theories/CompTabsSample.v
theories/CompCases.v
theories/PComp.v
theories/SpecScreen.v
theories/ScreenFacts.v
theories/ScreenPaint.v
theories/ScreenCmd.v
theories/ScreenSess.v
theories/ScreenSimple.v
theories/ScreenCheck.v
theories/ScreenProps.v
theories/PScreen.v
theories/TokFacts.v
theories/SpecVt.v
theories/SingleLine.v
theories/SpecVtTabs.v
theories/TokTabs.v
theories/VtFacts.v
theories/VtSample.v
theories/PVt.v
theories/VtTabs.v
theories/VtTabsSample.v
theories/SpecVtScroll.v
theories/VtScroll.v
theories/PVtTabs.v
theories/Interact.v
theories/SpecInteract.v
theories/InteractFacts.v
theories/InteractSample.v
theories/SpecTabInteract.v
theories/TabInteract.v
theories/TabInteractSample.v
theories/PInteract.v
theories/Settings.v
theories/SpecSettings.v
theories/SettingsFacts.v
theories/SettingsSample.v
theories/PromptsTabs.v
theories/SettingsTabs.v
theories/ChangeTabsSample.v
theories/PSettings.v
theories/Tabs.v
theories/SpecTabs.v
theories/TabsFacts.v
theories/TabsSample.v
theories/PTabs.v
theories/SpecKeyboard.v
theories/KeyboardFacts.v
theories/PKeyboard.v
theories/TtyMode.v
theories/SpecTtyMode.v
theories/TtyModeFacts.v
theories/PTtyMode.v
theories/Reuse.v
theories/SpecReuse.v
theories/ReuseFacts.v
theories/PReuse.v
theories/SpecTabScreen.v
theories/TabScreen.v
theories/TabScreenSess.v
theories/TabScreenCheck.v
theories/TabScreenProps.v
theories/PTabScreen.v
theories/SpecTabScroll.v
theories/TabScroll.v
theories/TabScrollSess.v
theories/TabScrollCheck.v
theories/TabScrollProps.v
theories/PTabScroll.v
theories/TermCheck.v
theories/SpecEnv.v
theories/EnvFacts.v
theories/EnvSample.v
theories/PEnv.v
theories/RepoTests.v
theories/Setup.v
theories/SpecSetup.v
theories/SetupFacts.v
theories/PSetup.v
theories/Shell.v
theories/SpecShell.v
theories/ShellFacts.v
theories/PShell.v
theories/SpecInk.v
theories/InkFacts.v
theories/InkPaint.v
theories/InkCmd.v
theories/InkSess.v
theories/InkProps.v
theories/InkSample.v
theories/PInk.v
theories/SpecVtInk.v
theories/VtInk.v
theories/VtInkSample.v
theories/PVtInk.v
theories/WholeFacts.v
theories/PWhole.v
theories/SpecCost.v
theories/CostFacts.v
theories/CostScreen.v
theories/PCost.v
theories/SpecEditor.v
theories/EditorFacts.v
theories/PEditor.v
theories/SpecExact.v
theories/ExactFacts.v
theories/PExact.v
theories/SpecPromptRow.v
theories/PromptTok.v
theories/PromptRow.v
theories/PPromptRow.v
theories/SpecTabInk.v
theories/TabInk.v
theories/TabInkSess.v
theories/PTabInk.v
theories/SpecVtTabInk.v
theories/VtTabInk.v
theories/PVtTabInk.v
theories/SpecScrollInk.v
theories/ScrollInk.v
theories/ScrollInkSess.v
theories/PScrollInk.v
theories/SpecVtScrollInk.v
theories/VtScrollInk.v
theories/PVtScrollInk.v
theories/SchedScrollInk.v
theories/PSchedScrollInk.v
theories/SchedScreen.v
theories/PSchedScreen.v
theories/SpecInject.v
theories/InjectTok.v
theories/InjectFacts.v
theories/InjectSample.v
theories/InjectSched.v
theories/PInject.v
theories/SpecSupply.v
theories/Alphabet.v
theories/SupplyFacts.v
theories/SupplySample.v
theories/PSupply.v
theories/SpecOpposite.v
theories/OppositeFacts.v
theories/POpposite.v
theories/SpecShortcut.v
theories/ShortcutFacts.v
theories/PShortcut.v
theories/SpecPredShown.v
theories/PredShown.v
theories/VtPred.v
theories/PredTabs.v
theories/PredCut.v
theories/PredExact.v
theories/VtPredTabs.v
theories/VtPredCut.v
theories/PPredShown.v
theories/SpecSchedPred.v
theories/SchedPredTabs.v
theories/PSchedPredTabs.v
theories/SpecLeave.v
theories/LeaveFacts.v
theories/LeaveVt.v
theories/PLeave.v
theories/SchedPred.v
theories/PSchedPred.v
theories/SpecUndoOnly.v
theories/UndoOnly.v
theories/UndoCheck.v
theories/PUndoOnly.v
theories/SpecSlip.v
theories/SlipFacts.v
theories/SlipSess.v
theories/SlipExact.v
theories/PSlip.v
theories/SpecWindow.v
theories/WindowFacts.v
theories/WindowSched.v
theories/PWindow.v
