-Q theories Verif
theories/Model/Align.v
theories/Model/Calendar.v
theories/Model/CalendarRun.v
theories/Model/Cell.v
theories/Model/Config.v
theories/Model/Constants.v
theories/Model/DateRange.v
theories/Model/Datetime.v
theories/Model/Disagg.v
theories/Model/FileCalendar.v
theories/Model/Fl.v
theories/Model/Globals.v
theories/Model/Header.v
theories/Model/Interp.v
theories/Model/Kinds.v
theories/Model/Machine.v
theories/Model/Mtclim.v
theories/Model/Np.v
theories/Model/Output.v
theories/Model/Params.v
theories/Model/Period.v
theories/Model/Physics.v
theories/Model/Py.v
theories/Model/Reader.v
theories/Model/Restart.v
theories/Model/Run.v
theories/Model/Scheduler.v
theories/Model/Settings.v
theories/Model/Shared.v
theories/Model/State.v
theories/Model/Units.v
theories/Model/Unlabelled.v
theories/Model/Validate.v
theories/Model/Vic.v
theories/Model/VicWorker.v
theories/Model/Worker.v
theories/Spec/AlignSpec.v
theories/Spec/BlackBodySpec.v
theories/Spec/CalendarRunSpec.v
theories/Spec/CalendarSpec.v
theories/Spec/CellSpec.v
theories/Spec/DailySpec.v
theories/Spec/DaySpec.v
theories/Spec/DewSpec.v
theories/Spec/EarlierSpec.v
theories/Spec/FileCalendarSpec.v
theories/Spec/FormulaSpec.v
theories/Spec/FrameSpec.v
theories/Spec/GapSpec.v
theories/Spec/GlobalsSpec.v
theories/Spec/GridSpec.v
theories/Spec/HeaderSpec.v
theories/Spec/KindsSpec.v
theories/Spec/LaterSpec.v
theories/Spec/PeriodSpec.v
theories/Spec/PlainSpec.v
theories/Spec/ReaderSpec.v
theories/Spec/RowsSpec.v
theories/Spec/SchedulerSpec.v
theories/Spec/SeriesSpec.v
theories/Spec/SettingsSpec.v
theories/Spec/SetupSpec.v
theories/Spec/SharedSpec.v
theories/Spec/ShortSpec.v
theories/Spec/SolarSpec.v
theories/Spec/StateSpec.v
theories/Spec/StepSpec.v
theories/Spec/TempSpec.v
theories/Spec/TimeSpec.v
theories/Spec/UnitsSpec.v
theories/Spec/UtcDaySpec.v
theories/Spec/VaporSpec.v
theories/Spec/VicSpec.v
theories/Spec/VicWorkerSpec.v
theories/Spec/WorkerSpec.v
theories/Spec/WriterSpec.v
theories/Proofs/AlignCases.v
theories/Proofs/AlignProofs.v
theories/Proofs/AlignRun.v
theories/Proofs/ArrayProofs.v
theories/Proofs/Base.v
theories/Proofs/CalendarRunProofs.v
theories/Proofs/CellBody.v
theories/Proofs/CellOutputs.v
theories/Proofs/CellProofs.v
theories/Proofs/CellTotal.v
theories/Proofs/ChunkProofs.v
theories/Proofs/ConfigProofs.v
theories/Proofs/DateProofs.v
theories/Proofs/DateRangeProofs.v
theories/Proofs/DayProofs.v
theories/Proofs/DewCell.v
theories/Proofs/DewGaps.v
theories/Proofs/DewMap.v
theories/Proofs/DewProofs.v
theories/Proofs/DisaggProofs.v
theories/Proofs/EarlierProofs.v
theories/Proofs/EarlierRuns.v
theories/Proofs/EmissivityProofs.v
theories/Proofs/EndToEnd.v
theories/Proofs/EnergyProofs.v
theories/Proofs/FileCalendarProofs.v
theories/Proofs/FileProofs.v
theories/Proofs/FileRun.v
theories/Proofs/FormulaProofs.v
theories/Proofs/FrameProofs.v
theories/Proofs/GapProofs.v
theories/Proofs/GlobalsProofs.v
theories/Proofs/HeaderProofs.v
theories/Proofs/HumidProofs.v
theories/Proofs/InputExamples.v
theories/Proofs/KindsProofs.v
theories/Proofs/LaterProofs.v
theories/Proofs/LaterRuns.v
theories/Proofs/LoadProofs.v
theories/Proofs/LongwaveProofs.v
theories/Proofs/MachineProofs.v
theories/Proofs/MtclimProofs.v
theories/Proofs/NameProofs.v
theories/Proofs/OrbitProofs.v
theories/Proofs/OutputProofs.v
theories/Proofs/PassProofs.v
theories/Proofs/PchipProofs.v
theories/Proofs/PeriodProofs.v
theories/Proofs/PhysicsExamples.v
theories/Proofs/PiBounds.v
theories/Proofs/PlainProofs.v
theories/Proofs/PolarCell.v
theories/Proofs/PolarSun.v
theories/Proofs/PrecExamples.v
theories/Proofs/PrecProofs.v
theories/Proofs/RBase.v
theories/Proofs/ReadSettings.v
theories/Proofs/ReaderProofs.v
theories/Proofs/RestartProofs.v
theories/Proofs/RunTotal.v
theories/Proofs/SchedulerProofs.v
theories/Proofs/SettingsExamples.v
theories/Proofs/SettingsProofs.v
theories/Proofs/SetupProofs.v
theories/Proofs/SharedCases.v
theories/Proofs/SharedProofs.v
theories/Proofs/SharedRun.v
theories/Proofs/ShortwaveProofs.v
theories/Proofs/SliceProofs.v
theories/Proofs/SolarExamples.v
theories/Proofs/SolarProofs.v
theories/Proofs/SolarTables.v
theories/Proofs/SpanProofs.v
theories/Proofs/StateProofs.v
theories/Proofs/StepProofs.v
theories/Proofs/SvpProofs.v
theories/Proofs/TempProofs.v
theories/Proofs/UnitsProofs.v
theories/Proofs/UtcDayProofs.v
theories/Proofs/UtcProofs.v
theories/Proofs/VaporProofs.v
theories/Proofs/VaporValues.v
theories/Proofs/VicCases.v
theories/Proofs/VicProofs.v
theories/Proofs/VicRun.v
theories/Proofs/VicWorkerProofs.v
theories/Proofs/WholeProofs.v
theories/Proofs/WindProofs.v
theories/Proofs/WorkerProofs.v
theories/Proofs/WorkerTotal.v
theories/Proofs/WriterProofs.v
theories/Proofs/YearProofs.v
theories/Properties/Align.v
theories/Properties/CalendarRuns.v
theories/Properties/Calendars.v
theories/Properties/CellValues.v
theories/Properties/Cells.v
theories/Properties/Days.v
theories/Properties/Dewpoint.v
theories/Properties/Earlier.v
theories/Properties/FileCalendars.v
theories/Properties/Formulas.v
theories/Properties/Gaps.v
theories/Properties/Globals.v
theories/Properties/Grid.v
theories/Properties/Headers.v
theories/Properties/Inputs.v
theories/Properties/Kinds.v
theories/Properties/Later.v
theories/Properties/Longwave.v
theories/Properties/OutputTimes.v
theories/Properties/Period.v
theories/Properties/Physics.v
theories/Properties/Plain.v
theories/Properties/Precip.v
theories/Properties/Restarts.v
theories/Properties/Runs.v
theories/Properties/Scheduler.v
theories/Properties/Settings.v
theories/Properties/Setup.v
theories/Properties/Shared.v
theories/Properties/Shortwave.v
theories/Properties/Solar.v
theories/Properties/States.v
theories/Properties/Steps.v
theories/Properties/Temperature.v
theories/Properties/UtcDays.v
theories/Properties/Vapor.v
theories/Properties/VaporValues.v
theories/Properties/Vic.v
theories/Properties/VicRuns.v
theories/Properties/Workers.v
theories/Properties/Writers.v
