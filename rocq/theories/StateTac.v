(** * StateTac: normalizing states

    [st_norm X] replaces the state [X] by its normal form with respect to the field updates
    and projections. *)

From Verif Require Import Base Prim Values Records LinkedData StrHash IntMap Strings AStream BufStream State.

Ltac st_eval X :=
  eval cbv beta iota zeta delta [set_d_names set_d_uels set_d_usr set_d_status set_d_texts set_d_maptext set_d_acros set_d_filts set_d_dstrs set_d_uelcnt set_d_nn set_d_un set_d_dn set_e_disk set_e_storedom set_e_bogus set_e_acrnan set_e_nextacr set_e_tab set_e_rtab set_f_name set_f_strm set_f_start set_f_ops set_f_bo set_f_ver set_f_compr set_f_compout set_f_uncomp set_f_mip set_f_nwp set_f_sysid set_f_prod set_f_stat set_r_last set_r_cnt set_r_tot set_r_list set_w_cur set_w_dim set_w_dsize set_w_last set_w_prev set_w_mms set_w_lstr set_w_wrb set_w_cnt set_w_sort set_w_rd set_w_univ set_w_unr set_w_doms set_w_added set_w_curf set_s_synr set_s_indx set_s_rev set_s_elems set_g_mode set_g_aft set_g_env set_g_fil set_g_dic set_g_err set_g_wrk set_g_sli d_names d_uels d_usr d_status d_texts d_maptext d_acros d_filts d_dstrs d_uelcnt d_nn d_un d_dn e_disk e_storedom e_bogus e_acrnan e_nextacr e_tab e_rtab f_name f_strm f_start f_ops f_bo f_ver f_compr f_compout f_uncomp f_mip f_nwp f_sysid f_prod f_stat r_last r_cnt r_tot r_list w_cur w_dim w_dsize w_last w_prev w_mms w_lstr w_wrb w_cnt w_sort w_rd w_univ w_unr w_doms w_added w_curf s_synr s_indx s_rev s_elems g_mode g_aft g_env g_fil g_dic g_err g_wrk g_sli upd upd_env upd_fil upd_dic upd_err upd_wrk] in X.
Ltac st_norm X := let Y := st_eval X in change X with Y.
