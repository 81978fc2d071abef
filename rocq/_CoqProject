-Q theories Verif
theories/Anal.v
theories/ArgMin.v
theories/Cont.v
theories/Cont1.v
theories/Data_ab06.v
theories/Data_ab06f.v
theories/Data_ab06s.v
theories/Data_aga16.v
theories/Data_asb14.v
theories/Data_ask14.v
theories/Data_ba18.v
theories/Data_ba19.v
theories/Data_bssa14.v
theories/Data_c03.v
theories/Data_cb14.v
theories/Data_cop14.v
theories/Data_cy14.v
theories/Data_dbc14.v
theories/Data_ga11.v
theories/Data_i14.v
theories/Data_pr24.v
theories/Data_pzt11.v
theories/Data_tp05.v
theories/Flt.v
theories/Framework.v
theories/FrameworkProofs.v
theories/FrameworkProps.v
theories/GmmLib.v
theories/Heap.v
theories/M_ab06.v
theories/M_ab06z.v
theories/M_ab20.v
theories/M_aga16.v
theories/M_arrays.v
theories/M_as16.v
theories/M_as96.v
theories/M_asb14.v
theories/M_ask14.v
theories/M_ba18.v
theories/M_ba19.v
theories/M_bj08.v
theories/M_bssa14.v
theories/M_c03.v
theories/M_cb14.v
theories/M_cy14.v
theories/M_dbc14.v
theories/M_ga11.v
theories/M_hkr14.v
theories/M_i14.v
theories/M_interp.v
theories/M_k17.v
theories/M_ks06.v
theories/M_pjs17.v
theories/M_pr23.v
theories/M_pr24.v
theories/M_pzt11.v
theories/M_scen.v
theories/M_scenops.v
theories/M_tp05.v
theories/M_tp05c.v
theories/M_warn.v
theories/Nga.v
theories/Np.v
theories/NpProofs.v
theories/Outs.v
theories/Outs1.v
theories/P_ab06.v
theories/P_aga16.v
theories/P_aga16b.v
theories/P_arrays.v
theories/P_as16.v
theories/P_as16ord.v
theories/P_asb14.v
theories/P_ask14.v
theories/P_ask14b.v
theories/P_asks.v
theories/P_ba18.v
theories/P_ba19.v
theories/P_ba19b.v
theories/P_basin.v
theories/P_bj08.v
theories/P_bjpsd.v
theories/P_bsdist.v
theories/P_bsmag.v
theories/P_bssa14.v
theories/P_c03.v
theories/P_cb14.v
theories/P_cb14b.v
theories/P_cbsoft.v
theories/P_cbsoil.v
theories/P_cbsoil2.v
theories/P_cy14.v
theories/P_dbc14.v
theories/P_dbc14b.v
theories/P_dur.v
theories/P_ga11.v
theories/P_hkr14.v
theories/P_hkr14b.v
theories/P_hw.v
theories/P_i14.v
theories/P_interp.v
theories/P_k17.v
theories/P_k17b.v
theories/P_k17pd.v
theories/P_magasb.v
theories/P_magother.v
theories/P_magsub.v
theories/P_mech.v
theories/P_ngacont.v
theories/P_ngamag.v
theories/P_ngamag2.v
theories/P_ngamag3.v
theories/P_ngaspec.v
theories/P_pjs17.v
theories/P_pr23.v
theories/P_pr24.v
theories/P_pr24b.v
theories/P_pzt11.v
theories/P_sigma.v
theories/P_site.v
theories/P_tp05.v
theories/P_warn.v
theories/Properties_Active.v
theories/Properties_After.v
theories/Properties_Arrays.v
theories/Properties_Asks.v
theories/Properties_Back.v
theories/Properties_Basin.v
theories/Properties_Cond.v
theories/Properties_Cond2.v
theories/Properties_Deep.v
theories/Properties_DurCont.v
theories/Properties_Duration.v
theories/Properties_East.v
theories/Properties_East2.v
theories/Properties_EastCont.v
theories/Properties_EastMag.v
theories/Properties_EastPub.v
theories/Properties_Fas.v
theories/Properties_FasCont.v
theories/Properties_Floor.v
theories/Properties_Framework.v
theories/Properties_Framework2.v
theories/Properties_Hw.v
theories/Properties_Interp.v
theories/Properties_MagLim.v
theories/Properties_MagOther.v
theories/Properties_NGA.v
theories/Properties_NGACont.v
theories/Properties_NGAMag.v
theories/Properties_NGAPub.v
theories/Properties_NGAPub2.v
theories/Properties_NGAPub3.v
theories/Properties_Net.v
theories/Properties_Offers.v
theories/Properties_Other.v
theories/Properties_Params.v
theories/Properties_Pop.v
theories/Properties_Pr23.v
theories/Properties_Pr24.v
theories/Properties_Region.v
theories/Properties_Region2.v
theories/Properties_RestCont.v
theories/Properties_Sigma.v
theories/Properties_Site.v
theories/Properties_Site2.v
theories/Properties_Stafford.v
theories/Properties_SubCont.v
theories/Properties_Threads.v
theories/Properties_VH.v
theories/Properties_Warn.v
theories/Py.v
theories/SpecNga.v
theories/Spec_arrays.v
theories/Spec_asb14.v
theories/Spec_ask14.v
theories/Spec_asks.v
theories/Spec_ba18.v
theories/Spec_ba19.v
theories/Spec_basin.v
theories/Spec_bssa14.v
theories/Spec_cb14.v
theories/Spec_cms.v
theories/Spec_cms2.v
theories/Spec_cy14.v
theories/Spec_dbc14.v
theories/Spec_dur.v
theories/Spec_east.v
theories/Spec_ga11.v
theories/Spec_hkr14.v
theories/Spec_k17.v
theories/Spec_maglim.v
theories/Spec_pjs17.v
theories/Spec_pr23.v
theories/Spec_pr24.v
theories/Spec_sigma.v
theories/Spec_site.v
theories/Spec_sub.v
theories/Spec_warn.v
