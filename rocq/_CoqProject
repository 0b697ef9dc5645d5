-Q theories Verif
theories/Num.v
theories/Py.v
theories/Space.v
theories/Logger.v
theories/Forecast.v
theories/Module.v
theories/Container.v
theories/Microgrid.v
theories/Proofs_Num.v
theories/Spec_Module.v
theories/Proofs_Space.v
theories/Proofs_Logger.v
theories/Proofs_Module.v
theories/Proofs_Battery.v
theories/Spec_Genset.v
theories/Spec_Reach.v
theories/Proofs_Genset.v
theories/Proofs_Ts.v
theories/Proofs_Any.v
theories/Proofs_Request.v
theories/Proofs_Data.v
theories/Proofs_Setters.v
theories/Proofs_Classes.v
theories/Proofs_Props.v
theories/Spec_Microgrid.v
theories/Proofs_Container.v
theories/Proofs_Run.v
theories/Proofs_Balance.v
theories/Proofs_Mgrid.v
theories/Proofs_Views.v
theories/Proofs_MgProps.v
theories/Proofs_MgProps2.v
theories/Proofs_Build.v
theories/Proofs_Episode.v
theories/Spec_Sane.v
theories/Proofs_Sane.v
theories/Proofs_Progress.v
theories/Proofs_Control.v
theories/Proofs_Convert.v
theories/Trajectory.v
theories/Spec_Trajectory.v
theories/Proofs_Trajectory.v
theories/Shaping.v
theories/Spec_Shaping.v
theories/Proofs_Shaping.v
theories/PriorityList.v
theories/Env.v
theories/Spec_Priority.v
theories/Spec_Env.v
theories/Proofs_Perm.v
theories/Proofs_Priority.v
theories/Proofs_Deploy.v
theories/Proofs_Rbc.v
theories/Proofs_Env.v
theories/Proofs_Obs.v
theories/Proofs_Cont.v
theories/Proofs_RbcRun.v
theories/Serialize.v
theories/Spec_Serialize.v
theories/Proofs_Serialize.v
theories/Proofs_Saved.v
theories/Proofs_Rebuild.v
theories/Examples_Mg.v
theories/Properties_Space.v
theories/Properties_Battery.v
theories/Properties_Genset.v
theories/Properties_Ts.v
theories/Properties_Module.v
theories/Properties_Microgrid.v
theories/Properties_Control.v
theories/Properties_Trajectory.v
theories/Properties_Shaping.v
theories/Properties_Priority.v
theories/Properties_Env.v
theories/Properties_RbcRun.v
theories/Properties_Serialize.v
theories/NonModular.v
theories/Spec_NonModular.v
theories/Proofs_NonModular.v
theories/Proofs_NmRun.v
theories/Proofs_NmHistory.v
theories/Proofs_NmBattery.v
theories/Proofs_NmCost.v
theories/Proofs_NmClock.v
theories/Proofs_NmProgress.v
theories/Proofs_NmEpisode.v
theories/Proofs_NmTotal.v
theories/Proofs_NmReads.v
theories/Proofs_NmRecord.v
theories/NmRbc.v
theories/Spec_NmRbc.v
theories/Proofs_NmRbc.v
theories/Properties_NmRbc.v
theories/Spec_NmRbcRun.v
theories/Proofs_NmRbcRun.v
theories/Proofs_NmRbcServe.v
theories/Proofs_NmRbcTwin.v
theories/Properties_NmRbcRun.v
theories/Properties_NonModular.v
theories/Conversion.v
theories/Spec_Conversion.v
theories/Proofs_Conversion.v
theories/Proofs_Twin.v
theories/Proofs_Twin2.v
theories/Proofs_Twin3.v
theories/Proofs_Copy.v
theories/Proofs_Copy2.v
theories/Proofs_Copy3.v
theories/Proofs_Copy4.v
theories/Proofs_Copy5.v
theories/Proofs_Round.v
theories/Properties_Conversion.v
theories/MPC.v
theories/Spec_MPC.v
theories/Proofs_Mpc.v
theories/Proofs_Mpc2.v
theories/Proofs_Mpc3.v
theories/Proofs_Mpc4.v
theories/Proofs_Mpc5.v
theories/Proofs_Mpc6.v
theories/Proofs_Mpc7.v
theories/Proofs_Mpc8.v
theories/Proofs_Mpc9.v
theories/Examples_Mpc.v
theories/Properties_MPC.v
theories/Properties_MPC2.v
theories/NmMpc.v
theories/Spec_NmMpc.v
theories/Proofs_NmMpc.v
theories/Proofs_NmMpcPlan.v
theories/Proofs_NmMpcRun.v
theories/Properties_NmMpc.v
theories/Saa.v
theories/Benchmarks.v
theories/Spec_Benchmarks.v
theories/Proofs_Benchmarks.v
theories/Properties_Benchmarks.v
theories/Spec_Saa.v
theories/Proofs_Saa.v
theories/Proofs_SaaRun.v
theories/Proofs_SaaSame.v
theories/Properties_Saa.v
theories/Sampling.v
theories/Spec_Sampling.v
theories/Proofs_SampleGrid.v
theories/Proofs_SampleLoad.v
theories/Proofs_SamplePv.v
theories/Proofs_SamplePv2.v
theories/Proofs_SampleGen.v
theories/Properties_Sampling.v
theories/Properties_Forecasts.v
theories/Generator.v
theories/Spec_Generator.v
theories/Proofs_Generator.v
theories/Proofs_Generator2.v
theories/Proofs_Generator3.v
theories/Proofs_Generator4.v
theories/Proofs_Generator5.v
theories/Proofs_Generator6.v
theories/Properties_Generator.v
theories/OldEnv.v
theories/Spec_OldEnv.v
theories/Proofs_OldEnv.v
theories/Proofs_OldEnv2.v
theories/Proofs_OldEnv3.v
theories/Proofs_OldEnv4.v
theories/Proofs_OldEnv5.v
theories/Properties_OldEnv.v
theories/GymEnv.v
theories/Spec_GymEnv.v
theories/Proofs_GymEnv.v
theories/Proofs_GymEnv2.v
theories/Proofs_GymEnv3.v
theories/Proofs_GymEnv4.v
theories/Properties_GymEnv.v
theories/Properties_GymEnv2.v
