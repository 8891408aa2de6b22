-Q theories Verif
theories/Model/Base.v
theories/Model/Helpers.v
theories/Model/Queries.v
theories/Spec/Schedule.v
theories/Proofs/BaseLemmas.v
theories/Proofs/ScheduleLemmas.v
theories/Proofs/QueryLemmas.v
theories/Proofs/QueryLemmas2.v
theories/Proofs/QueryLemmas3.v
theories/Properties/QueryProps.v
theories/Model/Dispatcher.v
theories/Spec/Registry.v
theories/Proofs/DispatcherLemmas.v
theories/Properties/DispatcherProps.v
theories/Model/Lazy.v
theories/Properties/LazyProps.v
theories/Model/Dates.v
theories/Model/Zone.v
theories/Model/Build.v
theories/Spec/Construction.v
theories/Proofs/ZoneLemmas.v
theories/Proofs/BuildLemmas.v
theories/Proofs/BuildLemmas2.v
theories/Proofs/ShapeLemmas.v
theories/Spec/Civil.v
theories/Proofs/DatesLemmas.v
theories/Properties/BuildProps.v
theories/Model/Tcal.v
theories/Spec/Screen.v
theories/Proofs/TcalLemmas.v
theories/Properties/TcalProps.v
theories/Model/Holidays.v
theories/Model/Exchange.v
theories/Model/Hebrew.v
theories/Spec/Rules.v
theories/Spec/Feasts.v
theories/Spec/Venue.v
theories/Proofs/RuleLemmas.v
theories/Proofs/RuleRange.v
theories/Proofs/VenueLemmas.v
theories/Proofs/YearTypes.v
theories/Proofs/PairLemmas.v
theories/Proofs/VenueSound.v
theories/Proofs/FeastLemmas.v
theories/Proofs/HebrewLemmas.v
theories/Exchanges/common_holidays.v
theories/Exchanges/exchange_calendar_asex.v
theories/Exchanges/exchange_calendar_bvmf.v
theories/Exchanges/exchange_calendar_cmes.v
theories/Exchanges/exchange_calendar_iepa.v
theories/Exchanges/exchange_calendar_xams.v
theories/Exchanges/exchange_calendar_xasx.v
theories/Exchanges/exchange_calendar_xbkk.v
theories/Exchanges/exchange_calendar_xbog.v
theories/Exchanges/exchange_calendar_xbom.v
theories/Exchanges/exchange_calendar_xbru.v
theories/Exchanges/exchange_calendar_xbud.v
theories/Exchanges/exchange_calendar_xbue.v
theories/Exchanges/exchange_calendar_xcbf.v
theories/Exchanges/exchange_calendar_xcse.v
theories/Exchanges/exchange_calendar_xdub.v
theories/Exchanges/exchange_calendar_xetr.v
theories/Exchanges/exchange_calendar_xfra.v
theories/Exchanges/exchange_calendar_xhel.v
theories/Exchanges/exchange_calendar_xhkg.v
theories/Exchanges/exchange_calendar_xice.v
theories/Exchanges/exchange_calendar_xidx.v
theories/Exchanges/exchange_calendar_xist.v
theories/Exchanges/exchange_calendar_xjse.v
theories/Exchanges/exchange_calendar_xkar.v
theories/Exchanges/exchange_calendar_xkls.v
theories/Exchanges/exchange_calendar_xkrx.v
theories/Exchanges/exchange_calendar_xlim.v
theories/Exchanges/exchange_calendar_xlis.v
theories/Exchanges/exchange_calendar_xlon.v
theories/Exchanges/exchange_calendar_xmad.v
theories/Exchanges/exchange_calendar_xmex.v
theories/Exchanges/exchange_calendar_xmil.v
theories/Exchanges/exchange_calendar_xmos.v
theories/Exchanges/exchange_calendar_xnys.v
theories/Exchanges/exchange_calendar_xnze.v
theories/Exchanges/exchange_calendar_xosl.v
theories/Exchanges/exchange_calendar_xpar.v
theories/Exchanges/exchange_calendar_xphs.v
theories/Exchanges/exchange_calendar_xpra.v
theories/Exchanges/exchange_calendar_xses.v
theories/Exchanges/exchange_calendar_xsgo.v
theories/Exchanges/exchange_calendar_xshg.v
theories/Exchanges/exchange_calendar_xsto.v
theories/Exchanges/exchange_calendar_xswx.v
theories/Exchanges/exchange_calendar_xtae.v
theories/Exchanges/exchange_calendar_xtai.v
theories/Exchanges/exchange_calendar_xtks.v
theories/Exchanges/exchange_calendar_xtse.v
theories/Exchanges/exchange_calendar_xwar.v
theories/Exchanges/exchange_calendar_xwbo.v
theories/Exchanges/lunisolar_holidays.v
theories/Exchanges/tase_holidays.v
theories/Exchanges/us_futures_calendar.v
theories/Exchanges/us_holidays.v
theories/Exchanges/xbkk_holidays.v
theories/Exchanges/xkls_holidays.v
theories/Exchanges/xtks_holidays.v
theories/Exchanges/All.v
theories/Exchanges/zones.v
theories/Proofs/VenueZones.v
theories/Proofs/VenueRows.v
theories/Proofs/VenueData.v
theories/Properties/HolidayProps.v
theories/Properties/FeastProps.v
theories/Properties/ExchangeProps.v
theories/Model/Library.v
theories/Spec/Catalogue.v
theories/Properties/LibraryProps.v
theories/Spec/Almanac.v
theories/Proofs/AlmanacLemmas.v
theories/Proofs/AlmanacRules.v
theories/Properties/AlmanacProps.v
theories/Spec/Hours.v
theories/Spec/Festivals.v
theories/Proofs/HoursRules.v
theories/Proofs/FestivalRules.v
theories/Properties/HoursProps.v
theories/Properties/FestivalProps.v
theories/Spec/Sky.v
theories/Spec/Islamic.v
theories/Proofs/SkyRules.v
theories/Properties/SkyProps.v
theories/Properties/MoonProps.v
theories/Model/Lunisolar.v
theories/Spec/Ephemeris.v
theories/Spec/Months.v
theories/Proofs/LunisolarLemmas.v
theories/Proofs/MonthLemmas.v
theories/Properties/LunisolarProps.v
theories/Properties/MonthProps.v
theories/Properties/TableProps.v
theories/Model/Threads.v
theories/Spec/Interleaving.v
theories/Proofs/ThreadLemmas.v
theories/Properties/ThreadProps.v
theories/Model/Checks.v
theories/Properties/CheckProps.v
theories/Spec/Market.v
theories/Properties/MarketProps.v
theories/Model/Machine.v
theories/Proofs/MachineLemmas.v
theories/Properties/MachineProps.v
theories/Model/Version.v
theories/Spec/Git.v
theories/Proofs/VersionLemmas.v
theories/Properties/VersionProps.v
theories/Model/Messages.v
theories/Spec/Literal.v
theories/Properties/MessageProps.v
theories/Model/ChineseCal.v
theories/Model/Terrestrial.v
theories/Spec/LunarPage.v
theories/Spec/TimeScale.v
theories/Proofs/ChineseCalLemmas.v
theories/Proofs/TerrestrialLemmas.v
theories/Proofs/SmoothLemmas.v
theories/Properties/ChineseCalProps.v
theories/Properties/TerrestrialProps.v
theories/Model/Store.v
theories/Spec/Blocks.v
theories/Proofs/StoreLemmas.v
theories/Properties/StoreProps.v
theories/Properties/LawProps.v
theories/Model/Program.v
theories/Spec/Sharing.v
theories/Properties/ProgramProps.v
theories/Model/TestCsv.v
theories/Spec/Record.v
theories/Spec/Duration.v
theories/Properties/RecordProps.v
theories/Proofs/SteadyLemmas.v
theories/Properties/LengthProps.v
theories/Model/ErrorTexts.v
theories/Properties/ErrorTextProps.v
theories/Model/BusinessDay.v
theories/Spec/Workday.v
theories/Proofs/BusinessDayLemmas.v
theories/Properties/BusinessDayProps.v
theories/Model/HolidayCalendar.v
theories/Spec/Inquiry.v
theories/Proofs/HolidayCalendarLemmas.v
theories/Properties/HolidayCalendarProps.v
theories/Model/VersionStyles.v
theories/Spec/Styles.v
theories/Properties/StyleProps.v
theories/Properties/SupersetProps.v
theories/Model/Versioneer.v
theories/Model/VersionSource.v
theories/Spec/Distribution.v
theories/Proofs/VersioneerLemmas.v
theories/Properties/DistributionProps.v
theories/Properties/EuronextProps.v
theories/Model/Installer.v
theories/Spec/Installation.v
theories/Proofs/InstallerLemmas.v
theories/Properties/InstallerProps.v
theories/Spec/PerYear.v
theories/Proofs/PerYearLemmas.v
theories/Properties/PerYearProps.v
theories/Spec/Gaps.v
theories/Proofs/GapLemmas.v
theories/Properties/GapProps.v
theories/Spec/HalfDays.v
theories/Properties/HalfDayProps.v
theories/Spec/YearMinutes.v
theories/Properties/YearMinuteProps.v
