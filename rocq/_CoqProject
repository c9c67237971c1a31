-Q theories Verif
theories/Num.v
theories/Mat.v
theories/Py.v
theories/NumFloat.v
theories/NumExt.v
theories/Lp.v
theories/M_simplex.v
theories/M_spg.v
theories/M_iter.v
theories/M_random.v
theories/M_furthest.v
theories/M_gpnh.v
theories/M_aa.v
theories/M_mtd.v
theories/M_crom.v
theories/M_fembv.v
theories/Spec.v
theories/Spec_fembv.v
theories/P_lin.v
theories/P_simplex.v
theories/P_spg.v
theories/P_furthest.v
theories/P_random.v
theories/P_iter.v
theories/P_mat.v
theories/P_gpnh.v
theories/P_gpnh_run.v
theories/P_aa.v
theories/P_aa_run.v
theories/P_aa_delta.v
theories/P_mtd.v
theories/P_mtd_upd.v
theories/P_mtd_run.v
theories/P_mtd_pred.v
theories/P_crom.v
theories/P_fembv.v
theories/P_fembv_upd.v
theories/P_fembv_run.v
theories/Props_base.v
theories/Props_gpnh.v
theories/Props_aa.v
theories/Props_mtd.v
theories/Props_crom.v
theories/Props_fembv.v
theories/M_varx.v
theories/Spec_varx.v
theories/P_varx.v
theories/P_varx_run.v
theories/P_varx_sim.v
theories/Props_varx.v
theories/Props_cov.v
theories/M_markov.v
theories/Spec_markov.v
theories/P_markov.v
theories/Props_markov.v
theories/M_pwvarx.v
theories/Spec_pwvarx.v
theories/P_pwvarx.v
theories/P_pwvarx_sim.v
theories/Props_pwvarx.v
theories/Heap.v
theories/M_heap.v
theories/M_heap_gpnh.v
theories/M_heap_aa.v
theories/M_heap_mtd.v
theories/M_heap_crom.v
theories/M_heap_hist.v
theories/Spec_heap.v
theories/Spec_heap_obj.v
theories/Spec_heap_hist.v
theories/P_heap.v
theories/P_heap_loops.v
theories/P_heap_gpnh.v
theories/P_heap_aa.v
theories/P_heap_mtd.v
theories/P_heap_only.v
theories/P_heap_crom.v
theories/P_heap_call.v
theories/P_heap_gpnh_call.v
theories/P_heap_aa_call.v
theories/P_heap_mtd_call.v
theories/P_heap_crom_call.v
theories/P_heap_hist.v
theories/Props_heap.v
theories/P_opt.v
theories/P_opt_params.v
theories/Props_opt.v
theories/M_dtype.v
theories/Spec_dtype.v
theories/P_dtype.v
theories/Props_dtype.v
theories/P_mtd_guard.v
theories/P_mtd_guard_run.v
theories/Props_guard.v
theories/Spec_init.v
theories/P_init.v
theories/Props_init.v
theories/M_int.v
theories/Spec_int.v
theories/P_int.v
theories/Props_int.v
theories/P_int_varx.v
theories/Props_int_varx.v
theories/P_int_pw.v
theories/Props_int_pw.v
theories/Num_rnd.v
theories/Num_b64.v
theories/Spec_rnd.v
theories/P_rnd.v
theories/P_b64.v
theories/P_rnd_draw.v
theories/Props_rnd.v
theories/Spec_rnd_run.v
theories/P_rnd_ls.v
theories/P_rnd_run.v
theories/P_rnd_large.v
theories/Props_rnd_run.v
theories/Spec_nan.v
theories/P_nan.v
theories/P_nan_gpnh.v
theories/P_nan_mtd.v
theories/P_nan_aa.v
theories/Props_nan.v
theories/M_crom_lags.v
theories/Spec_lags.v
theories/P_crom_lags.v
theories/P_crom_neg.v
theories/Props_lags.v
theories/Spec_edge.v
theories/P_edge.v
theories/P_edge_mtd.v
theories/P_edge_crom.v
theories/Props_edge.v
theories/Spec_short.v
theories/P_short.v
theories/P_short_crom.v
theories/Props_short.v
theories/P_int_dist.v
theories/Props_int_dist.v
theories/P_exclude.v
theories/Props_exclude.v
theories/P_fs_affine.v
theories/Props_fs_affine.v
theories/P_fs_data.v
theories/Props_fs_data.v
theories/Props_aa_keep.v
