-Q theories Verif
theories/Base.v
theories/Utf8.v
theories/Unicode.v
theories/Lexer.v
theories/GoTime.v
theories/Strconv.v
theories/Display.v
theories/Journal.v
theories/Parser.v
theories/Account.v
theories/Reporting.v
theories/Budget.v
theories/Humanize.v
theories/Cmd.v
theories/BaseFacts.v
theories/Utf8Facts.v
theories/LexSpec.v
theories/LexerFacts.v
theories/ParserFacts.v
theories/FlatSpec.v
theories/FlatFacts.v
theories/Spec.v
theories/JournalFacts.v
theories/BuilderFacts.v
theories/LineFacts.v
theories/IncludeFacts.v
theories/Sample.v
theories/PropsParser.v
theories/PropsLines.v
theories/TextSpec.v
theories/DateFacts.v
theories/DisplayFacts.v
theories/AmountFacts.v
theories/LargeFacts.v
theories/JournalText.v
theories/LexText.v
theories/LexBounds.v
theories/ReadFacts.v
theories/WriteFacts.v
theories/PropsText.v
theories/BodyFacts.v
theories/InputFacts.v
theories/BookText.v
theories/PeriodFacts.v
theories/WholeFacts.v
theories/PropsInput.v
theories/PanicSpec.v
theories/PanicFacts.v
theories/KeptFacts.v
theories/PropsPanic.v
theories/PropsIgnored.v
theories/TreeSpec.v
theories/TreeFacts.v
theories/PruneFacts.v
theories/ReportSpec.v
theories/ReportFacts.v
theories/CollapseFacts.v
theories/PropsReport.v
theories/CalendarFacts.v
theories/ParseRel.v
theories/CmdSpec.v
theories/StreamFacts.v
theories/CmdFacts.v
theories/BalanceFacts.v
theories/LexedFacts.v
theories/OriginFacts.v
theories/PrintFacts.v
theories/PropsCmd.v
theories/PropsBalance.v
theories/PropsPrint.v
theories/PropsReread.v
theories/PropsStats.v
theories/DayFacts.v
theories/FloatFacts.v
theories/AgeFacts.v
theories/BankFacts.v
theories/PropsAge.v
theories/BudgetSpec.v
theories/BudgetFacts.v
theories/BudgetRun.v
theories/PropsBudget.v
theories/Heap.v
theories/PropsHeap.v
theories/PropsTree.v
theories/Unused.v
theories/PropsUnused.v
theories/Main.v
theories/MainSpec.v
theories/MainFacts.v
theories/PropsMain.v
theories/PropsAgain.v
theories/PropsWhere.v
theories/HandFacts.v
theories/PropsConcat.v
theories/PropsJoin.v
theories/PropsApart.v
theories/PropsMoved.v
theories/PropsKept.v
theories/PropsFigures.v
theories/PropsArgs.v
theories/PropsWindow.v
theories/PropsInside.v
theories/PropsSums.v
theories/PropsMaps.v
theories/PropsMonths.v
theories/PropsPrinted.v
theories/PropsStatistics.v
theories/PropsJoinMore.v
theories/PropsOrder.v
theories/ProgramFacts.v
theories/PropsLayout.v
theories/PropsDepth.v
theories/PropsSpelling.v
theories/PropsShape.v
theories/PropsProgram.v
theories/PropsRanges.v
theories/PropsMachine.v
theories/PropsUtf8.v
theories/PropsCross.v
theories/PropsWords.v
theories/PropsHumanize.v
theories/PropsEarly.v
theories/PropsSheet.v
theories/GoSort.v
theories/SortFacts.v
theories/PropsSort.v
theories/PropsWhole.v
theories/PropsBook.v
theories/FilesText.v
theories/FilesFacts.v
theories/PlaceText.v
theories/PlaceFacts.v
theories/PropsFiles.v
theories/PropsSummary.v
theories/LocateFacts.v
theories/MistakeText.v
theories/MistakeFacts.v
theories/StopFacts.v
theories/PropsMistake.v
theories/FlagText.v
theories/FlagFacts.v
theories/PropsFlags.v
theories/PropsNote.v
theories/CrashText.v
theories/CrashFacts.v
theories/PropsCrash.v
theories/PropsColumns.v
theories/PropsPages.v
theories/PropsClasses.v
theories/PropsShuffled.v
theories/PropsRenamed.v
theories/PropsLocal.v
theories/PropsCancel.v
theories/PropsApartForms.v
theories/PropsInsideForms.v
theories/PropsUnseen.v
theories/PropsDays.v
theories/PropsWholly.v
theories/PropsSameDays.v
theories/PropsAttributed.v
theories/PropsListed.v
theories/PropsCategories.v
theories/PropsUnread.v
theories/PropsFurther.v
theories/PropsPostponed.v
theories/PropsLater.v
theories/PropsSequence.v
theories/PropsNames.v
theories/PropsDelayed.v
theories/Conformance.v
