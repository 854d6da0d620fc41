-Q theories Verif
theories/Base.v
theories/BeamProof.v
theories/BeamProps.v
theories/BeamSpec.v
theories/BesselProof.v
theories/BesselProof2.v
theories/BesselProof3.v
theories/CacheEx.v
theories/CacheModel.v
theories/CacheProof.v
theories/CacheProps.v
theories/CacheSpec.v
theories/ChainEx.v
theories/ChainEx2.v
theories/ChainEx3.v
theories/ChainModel.v
theories/ChainProof.v
theories/ChainProof2.v
theories/ChainProof3.v
theories/ChainProof4.v
theories/ChainProof5.v
theories/ChainProps.v
theories/ChainProps2.v
theories/ChainSpec.v
theories/ChainSpec2.v
theories/ChosenProof.v
theories/CliEx.v
theories/CliModel.v
theories/CliProof.v
theories/CliProof2.v
theories/CliProof3.v
theories/CliProof4.v
theories/CliProof5.v
theories/CliProof6.v
theories/CliProof7.v
theories/CliProps.v
theories/CliSpec.v
theories/ClockEx.v
theories/ClockProof.v
theories/ClockProof2.v
theories/ClockProof3.v
theories/ClockProof4.v
theories/ClockProps.v
theories/ClockSpec.v
theories/CmdEx.v
theories/CmdModel.v
theories/CmdProof.v
theories/CmdProps.v
theories/CmdSpec.v
theories/CollectEx.v
theories/CollectModel.v
theories/CollectProof.v
theories/CollectProof2.v
theories/CollectProof3.v
theories/CollectProps.v
theories/CollectSpec.v
theories/ConfEx.v
theories/ConfModel.v
theories/ConfProof.v
theories/ConfProps.v
theories/ConfSpec.v
theories/CornerProof.v
theories/CornerProps.v
theories/CurveEx.v
theories/CurveModel.v
theories/CurveProof.v
theories/CurveProof2.v
theories/CurveProof3.v
theories/CurveProof4.v
theories/CurveProof5.v
theories/CurveProof6.v
theories/CurveProps.v
theories/CurveSpec.v
theories/DampEx.v
theories/DampProof.v
theories/DampProof2.v
theories/DampProps.v
theories/DampSpec.v
theories/DepEx.v
theories/DepModel.v
theories/DepProof.v
theories/DepProof2.v
theories/DepProps.v
theories/DepSpec.v
theories/DepSpec2.v
theories/DiffuProof.v
theories/DiffuProps.v
theories/DiffuSpec.v
theories/DriftEx.v
theories/DriftProof.v
theories/DriftProof2.v
theories/DriftProps.v
theories/DriftSpec.v
theories/EnergyEx.v
theories/EnergyModel.v
theories/EnergyProof.v
theories/EnergyProps.v
theories/EnergySpec.v
theories/EntryEx.v
theories/EntryModel.v
theories/EntryProof.v
theories/EntryProps.v
theories/EntrySpec.v
theories/EventEx.v
theories/EventModel.v
theories/EventProof.v
theories/EventProps.v
theories/EventSpec.v
theories/FadeEx.v
theories/FadeProof.v
theories/FadeProof2.v
theories/FadeProps.v
theories/FbEx.v
theories/FbModel.v
theories/FbProof.v
theories/FbProof2.v
theories/FbProof3.v
theories/FbProps.v
theories/FbSpec.v
theories/FinishEx.v
theories/FinishModel.v
theories/FinishProof.v
theories/FinishProps.v
theories/FinishSpec.v
theories/FreqsEx.v
theories/FreqsModel.v
theories/FreqsProof.v
theories/FreqsProps.v
theories/FreqsSpec.v
theories/GainEx.v
theories/GainProof.v
theories/GainProof2.v
theories/GainProof3.v
theories/GainProof4.v
theories/GainProps.v
theories/GainSpec.v
theories/GaugeEx.v
theories/GaugeProof.v
theories/GaugeProof2.v
theories/GaugeProof3.v
theories/GaugeProps.v
theories/GaugeSpec.v
theories/GaussProof.v
theories/GreenEx.v
theories/GreenModel.v
theories/GreenProof.v
theories/GreenProof2.v
theories/GreenProps.v
theories/GreenSpec.v
theories/GridEx.v
theories/GridModel.v
theories/GridProof.v
theories/GridProps.v
theories/GridSpec.v
theories/InvEx.v
theories/InvModel.v
theories/InvProof.v
theories/InvProof2.v
theories/InvProof3.v
theories/InvProof4.v
theories/InvProps.v
theories/InvSpec.v
theories/JitterEx.v
theories/JitterProof.v
theories/JitterProof2.v
theories/JitterProof3.v
theories/JitterProps.v
theories/JitterSpec.v
theories/JoinEx.v
theories/JoinModel.v
theories/JoinProof.v
theories/JoinProof2.v
theories/JoinProof3.v
theories/JoinProps.v
theories/JoinSpec.v
theories/LabelEx.v
theories/LabelModel.v
theories/LabelProof.v
theories/LabelProps.v
theories/LabelSpec.v
theories/LaterEx.v
theories/LaterProof.v
theories/LaterProps.v
theories/LaterSpec.v
theories/LineEx.v
theories/LineModel.v
theories/LineProof.v
theories/LineProof2.v
theories/LineProof3.v
theories/LineProps.v
theories/LineSpec.v
theories/LogModel.v
theories/LogProof.v
theories/LogProps.v
theories/LogSpec.v
theories/Lsq.v
theories/LsqfbEx.v
theories/LsqfbModel.v
theories/LsqfbProof.v
theories/LsqfbProof2.v
theories/LsqfbProof3.v
theories/LsqfbProof4.v
theories/LsqfbProof5.v
theories/LsqfbProof6.v
theories/LsqfbProof7.v
theories/LsqfbProof8.v
theories/LsqfbProps.v
theories/LsqfbSpec.v
theories/MeanEx.v
theories/MeanProof.v
theories/MeanProps.v
theories/MeanSpec.v
theories/MergeProof.v
theories/MixEx.v
theories/MixProof.v
theories/MixProps.v
theories/MixSpec.v
theories/NameEx.v
theories/NameModel.v
theories/NameProof.v
theories/NameProof2.v
theories/NameProof3.v
theories/NameProps.v
theories/NameSpec.v
theories/NoiseEx.v
theories/NoiseProof.v
theories/NoiseProof2.v
theories/NoiseProof3.v
theories/NoiseProof4.v
theories/NoiseProof5.v
theories/NoiseProof6.v
theories/NoiseProps.v
theories/NoiseSpec.v
theories/OrderEx.v
theories/OrderProof.v
theories/OrderProof2.v
theories/OrderProof3.v
theories/OrderProps.v
theories/OrderSpec.v
theories/PairsEx.v
theories/PairsModel.v
theories/PairsProof.v
theories/PairsProof2.v
theories/PairsProps.v
theories/PairsSpec.v
theories/PanelEx.v
theories/PanelEx2.v
theories/PanelEx3.v
theories/PanelModel.v
theories/PanelProof.v
theories/PanelProof2.v
theories/PanelProof3.v
theories/PanelProof4.v
theories/PanelProof5.v
theories/PanelProof6.v
theories/PanelProof7.v
theories/PanelProof8.v
theories/PanelProps.v
theories/PanelProps2.v
theories/PanelSpec.v
theories/PeakProof.v
theories/PeakProps.v
theories/PitchEx.v
theories/PitchProof.v
theories/PitchProps.v
theories/PitchSpec.v
theories/PySort.v
theories/PyStr.v
theories/Pyf.v
theories/PyfOps.v
theories/ReprProof.v
theories/ResponseEx.v
theories/ResponseModel.v
theories/ResponseProof.v
theories/ResponseProps.v
theories/ResponseSpec.v
theories/Rt3Proof.v
theories/Rt3Proof2.v
theories/Rt3Props.v
theories/RtModel.v
theories/RtProof.v
theories/RtProof2.v
theories/RtProof3.v
theories/RtProof4.v
theories/RtProof9.v
theories/RtProps.v
theories/RtSpec.v
theories/RunEx.v
theories/RunEx2.v
theories/RunModel.v
theories/RunProof.v
theories/RunProof2.v
theories/RunProof3.v
theories/RunProof4.v
theories/RunProof5.v
theories/RunProof6.v
theories/RunProof7.v
theories/RunProof8.v
theories/RunProps.v
theories/RunProps2.v
theories/RunSpec.v
theories/RunSpec2.v
theories/ScaleModel.v
theories/ScaleProof.v
theories/ScaleProps.v
theories/ScaleSpec.v
theories/ShowEx.v
theories/ShowModel.v
theories/ShowProof.v
theories/ShowProof2.v
theories/ShowProof3.v
theories/ShowProps.v
theories/ShowSpec.v
theories/ShuffleEx.v
theories/ShuffleProof.v
theories/ShuffleProof2.v
theories/ShuffleProof3.v
theories/ShuffleProof4.v
theories/ShuffleProof5.v
theories/ShuffleProps.v
theories/ShuffleSpec.v
theories/SingleEx.v
theories/SingleModel.v
theories/SingleProof.v
theories/SingleProof2.v
theories/SingleProps.v
theories/SingleSpec.v
theories/SiteEx.v
theories/SiteModel.v
theories/SiteProof.v
theories/SiteProof2.v
theories/SiteProof3.v
theories/SiteProof4.v
theories/SiteProof5.v
theories/SiteProof6.v
theories/SiteProof7.v
theories/SiteProof8.v
theories/SiteProof9.v
theories/SiteProps.v
theories/SiteSpec.v
theories/SlopeEx.v
theories/SlopeProof.v
theories/SlopeProps.v
theories/SmoothEx.v
theories/SmoothModel.v
theories/SmoothProof.v
theories/SmoothProps.v
theories/SmoothSpec.v
theories/SortModel.v
theories/SortProof.v
theories/SortProps.v
theories/SourceEx.v
theories/SourceModel.v
theories/SourceProof.v
theories/SourceProof2.v
theories/SourceProof3.v
theories/SourceProof4.v
theories/SourceProof5.v
theories/SourceProps.v
theories/SourceSpec.v
theories/SpectraEx.v
theories/SpectraModel.v
theories/SpectraProof.v
theories/SpectraProof2.v
theories/SpectraProof3.v
theories/SpectraProps.v
theories/SpectraSpec.v
theories/SpreadProof.v
theories/SpreadProof2.v
theories/SpreadProof3.v
theories/SpreadProps.v
theories/SpreadSpec.v
theories/StatModel.v
theories/StatProof.v
theories/StatProof2.v
theories/StatProps.v
theories/StatSpec.v
theories/StatSpec2.v
theories/StepEx.v
theories/StepModel.v
theories/StepProof.v
theories/StepProps.v
theories/StepSpec.v
theories/TiltEx.v
theories/TiltProof.v
theories/TiltProof2.v
theories/TiltProps.v
theories/TiltSpec.v
theories/TimesEx.v
theories/TimesModel.v
theories/TimesProof.v
theories/TimesProof2.v
theories/TimesProps.v
theories/TimesSpec.v
theories/TwiceEx.v
theories/TwiceProof.v
theories/TwiceProps.v
theories/TwiceSpec.v
theories/UnitEx.v
theories/UnitProof.v
theories/UnitProof2.v
theories/UnitProof3.v
theories/UnitProps.v
theories/UnitSpec.v
theories/WidthModel.v
theories/WidthProof.v
theories/WidthProof2.v
theories/WidthProof3.v
theories/WidthProof4.v
theories/WidthProps.v
theories/WidthSpec.v
theories/WrapEx.v
theories/WrapModel.v
theories/WrapProof.v
theories/WrapProof2.v
theories/WrapProof3.v
theories/WrapProof4.v
theories/WrapProps.v
theories/WrapSpec.v
