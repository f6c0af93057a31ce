-Q theories Verif
theories/Base.v
theories/Gp_Model.v
theories/Gp_Spec.v
theories/Gp_Proofs.v
theories/Gp_Proofs2.v
theories/Gp_Proofs3.v
theories/Gp_Proofs4.v
theories/Gp_Proofs5.v
theories/Gp_Examples.v
theories/Gp_Main.v
theories/Gp_Props.v
theories/Num.v
theories/Num_Proofs.v
theories/Str_Model.v
theories/Str_Spec.v
theories/Str_Proofs.v
theories/Str_Main.v
theories/Str_Props.v
theories/Par_Model.v
theories/Par_Spec.v
theories/Par_Proofs.v
theories/Par_Main.v
theories/Par_Props.v
theories/Nsga_Model.v
theories/Nsga_Spec.v
theories/Nsga_Proofs.v
theories/Nsga_Proofs2.v
theories/Nsga_Proofs3.v
theories/Nsga_Proofs4.v
theories/Nsga_Proofs5.v
theories/Nsga_Main.v
theories/Nsga_Props.v
theories/Heap_Model.v
theories/Heap_Proofs.v
theories/Lib_Model.v
theories/Lib_Spec.v
theories/Lib_Proofs.v
theories/Lib_Proofs2.v
theories/Lib_Proofs3.v
theories/Lib_Main.v
theories/Lib_Props.v
theories/Async_Model.v
theories/Async_Spec.v
theories/Async_Proofs.v
theories/Async_Proofs2.v
theories/Async_Proofs3.v
theories/Async_Proofs4.v
theories/Async_Proofs5.v
theories/Async_Proofs6.v
theories/Async_Main.v
theories/Async_Props.v
theories/Search_Model.v
theories/Search_Spec.v
theories/Search_Proofs.v
theories/Search_Proofs2.v
theories/Search_Proofs3.v
theories/Search_Proofs4.v
theories/Search_Proofs5.v
theories/Search_Proofs6.v
theories/Search_Main.v
theories/Search_Props.v
theories/Ens_Model.v
theories/Ens_Spec.v
theories/Ens_Proofs.v
theories/Ens_Proofs2.v
theories/Ens_Proofs3.v
theories/Ens_Main.v
theories/Ens_Props.v
theories/Eval_Model.v
theories/Eval_Spec.v
theories/Eval_Proofs.v
theories/Eval_Main.v
theories/Eval_Props.v
theories/Cov_Spec.v
theories/Cov_Proofs.v
theories/Cov_Main.v
theories/Cov_Props.v
theories/Conf_Model.v
theories/Conf_Spec.v
theories/Conf_Proofs.v
theories/Conf_Proofs2.v
theories/Conf_Proofs3.v
theories/Conf_Examples.v
theories/Conf_Main.v
theories/Conf_Props.v
theories/Data_Model.v
theories/Data_Spec.v
theories/Data_Proofs.v
theories/Data_Proofs2.v
theories/Data_Main.v
theories/Data_Props.v
theories/Tk_Model.v
theories/Tk_Spec.v
theories/Tk_Proofs.v
theories/Tk_Main.v
theories/Tk_Props.v
theories/Misc_Model.v
theories/Misc_Spec.v
theories/Misc_Proofs.v
theories/Misc_Main.v
theories/Misc_Props.v
theories/Log_Model.v
theories/Log_Spec.v
theories/Log_Proofs.v
theories/Log_Proofs2.v
theories/Log_Proofs3.v
theories/Log_Proofs4.v
theories/Log_Main.v
theories/Log_Props.v
theories/Fac_Model.v
theories/Fac_Spec.v
theories/Fac_Proofs.v
theories/Fac_Main.v
theories/Fac_Props.v
theories/Search_Proofs7.v
theories/Search_Proofs8.v
theories/Eval_Proofs2.v
theories/Search_Proofs9.v
theories/Pred_Model.v
theories/Pred_Spec.v
theories/Pred_Proofs.v
theories/Pred_Main.v
theories/Pred_Props.v
theories/Conf_Proofs4.v
theories/Fit_Model.v
theories/Fit_Spec.v
theories/Fit_Proofs.v
theories/Fit_Proofs2.v
theories/Fit_Main.v
theories/Fit_Props.v
theories/Ship_Model.v
theories/Ship_Spec.v
theories/Ship_Proofs.v
theories/Ship_Proofs2.v
theories/Ship_Proofs3.v
theories/Ship_Proofs4.v
theories/Ship_Proofs5.v
theories/Ship_Main.v
theories/Ship_Props.v
theories/Hist_Model.v
theories/Hist_Spec.v
theories/Hist_Proofs.v
theories/Hist_Proofs2.v
theories/Hist_Proofs3.v
theories/Hist_Main.v
theories/Hist_Props.v
theories/Sys_Model.v
theories/Sys_Spec.v
theories/Sys_Proofs.v
theories/Sys_Proofs2.v
theories/Sys_Proofs3.v
theories/Sys_Proofs4.v
theories/Sys_Main.v
theories/Sys_Props.v
theories/Async_Proofs7.v
theories/Log_Proofs5.v
theories/Rep_Model.v
theories/Rep_Spec.v
theories/Rep_Main.v
theories/Rep_Props.v
theories/Str_Proofs2.v
theories/Elog_Model.v
theories/Elog_Spec.v
theories/Elog_Proofs.v
theories/Elog_Main.v
theories/Elog_Props.v
theories/Load_Model.v
theories/Load_Spec.v
theories/Load_Proofs.v
theories/Load_Main.v
theories/Load_Props.v
theories/Stop_Model.v
theories/Stop_Spec.v
theories/Stop_Proofs.v
theories/Stop_Main.v
theories/Stop_Props.v
theories/Det_Model.v
theories/Det_Spec.v
theories/Det_Proofs.v
theories/Det_Proofs2.v
theories/Det_Main.v
theories/Det_Props.v
theories/Evo_Model.v
theories/Evo_Spec.v
theories/Evo_Proofs.v
theories/Evo_Proofs2.v
theories/Evo_Proofs3.v
theories/Evo_Main.v
theories/Evo_Props.v
theories/Rnd_Model.v
theories/Rnd_Spec.v
theories/Rnd_Proofs.v
theories/Rnd_Proofs2.v
theories/Rnd_Proofs3.v
theories/Rnd_Main.v
theories/Rnd_Props.v
theories/End_Model.v
theories/End_Spec.v
theories/End_Proofs.v
theories/End_Main.v
theories/End_Props.v
theories/Mix_Model.v
theories/Mix_Spec.v
theories/Mix_Proofs.v
theories/Mix_Proofs2.v
theories/Mix_Proofs3.v
theories/Mix_Main.v
theories/Mix_Props.v
theories/Twice_Model.v
theories/Twice_Spec.v
theories/Twice_Proofs.v
theories/Twice_Main.v
theories/Twice_Props.v
theories/Seq_Model.v
theories/Seq_Spec.v
theories/Seq_Proofs.v
theories/Seq_Main.v
theories/Seq_Props.v
theories/Proc_Model.v
theories/Proc_Spec.v
theories/Proc_Proofs.v
theories/Proc_Proofs2.v
theories/Proc_Proofs3.v
theories/Proc_Main.v
theories/Proc_Props.v
theories/Team_Model.v
theories/Team_Spec.v
theories/Team_Main.v
theories/Team_Props.v
theories/Again_Spec.v
theories/Again_Proofs.v
theories/Again_Proofs2.v
theories/Again_Proofs3.v
theories/Again_Proofs4.v
theories/Again_Main.v
theories/Again_Props.v
theories/Limit_Model.v
theories/Limit_Spec.v
theories/Limit_Proofs.v
theories/Limit_Proofs2.v
theories/Limit_Proofs3.v
theories/Limit_Proofs4.v
theories/Limit_Proofs5.v
theories/Limit_Main.v
theories/Limit_Props.v
theories/Whole_Model.v
theories/Whole_Spec.v
theories/Whole_Proofs.v
theories/Whole_Proofs2.v
theories/Whole_Proofs3.v
theories/Whole_Main.v
theories/Whole_Props.v
theories/Whole_Proofs4.v
theories/Live_Spec.v
theories/Live_Proofs.v
theories/Live_Proofs2.v
theories/Live_Proofs3.v
theories/Live_Proofs4.v
theories/Live_Main.v
theories/Live_Props.v
theories/Done_Spec.v
theories/Done_Main.v
theories/Done_Props.v
theories/Top_Spec.v
theories/Top_Proofs.v
theories/Top_Main.v
theories/Top_Props.v
theories/Ample_Spec.v
theories/Ample_Proofs.v
theories/Ample_Main.v
theories/Ample_Props.v
theories/Crew_Main.v
theories/Crew_Props.v
theories/Evo_Proofs4.v
theories/Quota_Spec.v
theories/Quota_Proofs.v
theories/Quota_Main.v
theories/Quota_Props.v
theories/Later_Spec.v
theories/Later_Proofs.v
theories/Later_Main.v
theories/Later_Props.v
theories/Later_Proofs2.v
theories/More_Main.v
theories/More_Props.v
theories/Long_Spec.v
theories/Long_Proofs.v
theories/Long_Proofs2.v
theories/Long_Main.v
theories/Long_Props.v
