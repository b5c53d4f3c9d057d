-Q theories Verif

theories/Base.v
theories/Num.v
theories/Mat.v
theories/M_Audio.v
theories/M_Align.v
theories/M_Spectro.v
theories/M_Patch.v
theories/M_Nsim.v
theories/M_Selector.v
theories/M_Visqol.v
theories/M_SvrData.v
theories/M_Svr.v
theories/M_Cli.v
theories/F64.v
theories/RNum.v
theories/P_Base.v
theories/P_Mat.v
theories/P_Manager.v
theories/P_F64.v
theories/P_Exp.v
theories/Spec.v
theories/Spec2.v
theories/Witness.v
theories/P_Score.v
theories/P_Run.v
theories/WitnessZ.v
theories/P_Cli.v
theories/P_Patch.v
theories/P_Spectro.v
theories/P_Vad.v
theories/P_Compare.v
theories/P_R.v
theories/P_Win.v
theories/P_Bands.v
theories/P_Spectro2.v
theories/P_Audio.v
theories/P_Audio2.v
theories/P_Level.v
theories/P_Conv.v
theories/P_Nsim.v
theories/P_Agg.v
theories/P_Dp.v
theories/P_Dp2.v
theories/P_Dp3.v
theories/P_Prep.v
theories/P_Prep2.v
theories/P_Times.v
theories/P_Gain.v
theories/P_Gain2.v
theories/Spec3.v
theories/P_Dft.v
theories/P_Xcorr.v
theories/P_Env.v
theories/P_Self.v
theories/P_Slice.v
theories/P_Same.v
theories/P_Same2.v
theories/P_Total.v
theories/P_Total2.v
theories/P_Total3.v
theories/T_Same.v
theories/T_Score.v
theories/T_Run.v
theories/T_Cli.v
theories/T_Patch.v
theories/T_Vad.v
theories/T_Spectro.v
theories/T_Audio.v
theories/T_Nsim.v
theories/T_Select.v
theories/T_Prep.v
theories/T_Times.v
theories/T_Gain.v
theories/T_Xcorr.v
theories/T_Env.v
theories/P_Profile.v
theories/T_Profile.v
theories/P_Volume.v
theories/T_Volume.v
theories/P_Segment.v
theories/T_Segment.v
theories/Spec4.v
theories/P_NsimF.v
theories/P_NsimW.v
theories/T_NsimF.v
theories/P_Range.v
theories/T_Range.v
theories/P_RangeF.v
theories/T_RangeF.v
theories/P_Delay.v
theories/P_DelayT.v
theories/T_Delay.v
theories/P_Load.v
theories/P_LoadT.v
theories/T_Load.v
theories/P_Copy.v
theories/T_Copy.v
theories/Spec5.v
theories/P_Outcome.v
theories/T_Outcome.v
theories/Spec6.v
theories/P_Tool.v
theories/T_Tool.v
theories/P_Mapping.v
theories/T_Mapping.v
theories/P_Window.v
theories/T_Window.v
theories/P_Stable.v
theories/T_Stable.v
theories/P_Batch.v
theories/T_Batch.v
theories/P_Svr.v
theories/P_Svr2.v
theories/T_Svr.v
theories/Spec7.v
theories/P_Again.v
theories/T_Again.v
theories/P_React.v
theories/T_React.v
theories/Tests.v
theories/M_Text.v
theories/Spec8.v
theories/P_Text.v
theories/P_Text2.v
theories/T_Text.v
theories/M_Clap.v
theories/Spec9.v
theories/P_Clap.v
theories/T_Clap.v
theories/Spec10.v
theories/P_Silent.v
theories/T_Silent.v
theories/Spec11.v
theories/P_SilRef.v
theories/T_SilRef.v
theories/P_Opp.v
theories/T_Opp.v
theories/P_Report.v
theories/T_Report.v
theories/P_Order.v
theories/T_Order.v
theories/P_OrderF.v
theories/T_OrderF.v
theories/P_Bands2.v
theories/T_Bands.v
theories/Spec12.v
theories/P_Voice.v
theories/T_Voice.v
theories/Spec13.v
theories/P_LevelF.v
theories/P_Libm.v
theories/T_LevelF.v
theories/P_Quiet.v
theories/T_Quiet.v
theories/Spec14.v
theories/P_AggF.v
theories/T_AggF.v
theories/P_PrepF.v
theories/T_PrepF.v
theories/P_MoreF.v
theories/P_BandsF.v
theories/T_MoreF.v
theories/M_Example.v
theories/P_Example.v
theories/T_Example.v
theories/Spec15.v
theories/P_XcorrF.v
theories/P_FftTrue.v
theories/T_XcorrF.v
theories/P_EnvF.v
theories/T_EnvF.v
theories/Spec16.v
theories/P_AlignF.v
theories/T_AlignF.v
theories/P_TruncF.v
theories/T_TruncF.v
theories/Spec17.v
theories/P_Prov.v
theories/T_Prov.v
theories/P_ProvF.v
theories/T_ProvF.v
theories/Spec18.v
theories/P_VoiceF.v
theories/T_VoiceF.v
