-Q theories Verif
theories/Base.v
theories/Heap_Model.v
theories/Heap_Spec.v
theories/Heap_Proofs.v
theories/Heap_Props.v
theories/D8_Model.v
theories/D8_Spec.v
theories/D8_Proofs.v
theories/D8_Walk.v
theories/D8_Area.v
theories/D8_Props.v
theories/Fill_Model.v
theories/Fill_Spec.v
theories/Fill_Proofs.v
theories/Fill_Main.v
theories/Fill_Props.v
theories/Field.v
theories/Chan_Model.v
theories/Chan_Spec.v
theories/Chan_Proofs.v
theories/Chan_Props.v
theories/ChanR_Model.v
theories/ChanR_Proofs.v
theories/ChanR_Props.v
theories/Snow_Model.v
theories/Snow_Spec.v
theories/Snow_Proofs.v
theories/Glacier_Proofs.v
theories/Snow_Props.v
theories/Infil_Model.v
theories/Infil_Spec.v
theories/Infil_Proofs.v
theories/InfilR_Proofs.v
theories/Infil_Props.v
theories/Richards_Model.v
theories/Richards_Spec.v
theories/Richards_Proofs.v
theories/SoilFun_Proofs.v
theories/Richards_Sat.v
theories/Richards_Props.v
theories/Evap_Model.v
theories/Evap_Spec.v
theories/Evap_Proofs.v
theories/Evap_Props.v
theories/Satzone_Model.v
theories/Satzone_Spec.v
theories/Satzone_Proofs.v
theories/Satzone_Props.v
theories/Emeli_Model.v
theories/Emeli_Spec.v
theories/Emeli_Proofs.v
theories/Emeli_Props.v
theories/Interp_Model.v
theories/Interp_Spec.v
theories/Interp_Proofs.v
theories/Interp_Props.v
theories/Bmi_Model.v
theories/Bmi_Props.v
theories/Time_Model.v
theories/Time_Spec.v
theories/Time_Proofs.v
theories/Time_Cal.v
theories/Time_Props.v
theories/Io_Model.v
theories/Io_Spec.v
theories/Io_Proofs.v
theories/Io_Props.v
theories/Rti_Model.v
theories/Rti_Spec.v
theories/Rti_Proofs.v
theories/Rti_Props.v
theories/Rts_Model.v
theories/Rts_Spec.v
theories/Rts_Proofs.v
theories/Rts_Props.v
theories/Fmt_Model.v
theories/Fmt_Proofs.v
theories/Txt_Model.v
theories/Txt_Spec.v
theories/Txt_Props.v
theories/Cfg_Model.v
theories/Cfg_Spec.v
theories/Cfg_Proofs.v
theories/Cfg_Props.v
theories/Div_Model.v
theories/Div_Spec.v
theories/Div_Props.v
theories/Solar_Model.v
theories/Solar_Spec.v
theories/Solar_Proofs.v
theories/Solar_Props.v
theories/SolarClock_Props.v
theories/Energy_Model.v
theories/Energy_Spec.v
theories/Energy_Props.v
theories/Couple_Model.v
theories/Couple_Spec.v
theories/Couple_Props.v
theories/Geo_Model.v
theories/Geo_Spec.v
theories/Pixel_Props.v
theories/FlowGeo_Props.v
theories/Prep_Model.v
theories/Prep_Spec.v
theories/Tca_Props.v
theories/Downstream_Props.v
theories/Depth_Proofs.v
theories/Depth_Props.v
theories/Calib_Model.v
theories/Calib_Spec.v
theories/Calib_Props.v
theories/CalibRun_Props.v
theories/Spear_Model.v
theories/Spear_Spec.v
theories/Spear_Proofs.v
theories/Spear_Props.v
theories/Out_Model.v
theories/Out_Spec.v
theories/Out_Props.v
theories/Prof_Model.v
theories/Prof_Props.v
theories/Regrid_Model.v
theories/Regrid_Props.v
theories/Clim_Model.v
theories/Clim_Swb.v
theories/Clim_Props.v
theories/D8Local_Model.v
theories/D8Local_Props.v
theories/Layer_Model.v
theories/Layer_Props.v
theories/Indic_Model.v
theories/Indic_Props.v
theories/Conf_Model.v
theories/Conf_Props.v
theories/Des_Model.v
theories/Des_Props.v
theories/Wave_Model.v
theories/Wave_Spec.v
theories/Wave_Proofs.v
theories/Wave_Inv.v
theories/Wave_Order.v
theories/Wave_Steady.v
theories/Wave_Rise.v
theories/Wave_Props.v
theories/Ice_Model.v
theories/Ice_Spec.v
theories/Ice_Proofs.v
theories/Ice_Flow.v
theories/Ice_Sym.v
theories/Ice_Props.v
theories/Pedo_Model.v
theories/Pedo_Spec.v
theories/Pedo_Proofs.v
theories/Pedo_Props.v
theories/Slope_Model.v
theories/Slope_Spec.v
theories/Slope_Proofs.v
theories/Slope_Chain.v
theories/Slope_Props.v
theories/Multi_Model.v
theories/Multi_Spec.v
theories/Multi_Proofs.v
theories/Multi_Props.v
theories/Erode_Model.v
theories/Erode_Spec.v
theories/Erode_Proofs.v
theories/Erode_Props.v
theories/Erode_Law.v
theories/Erode_Law_Props.v
theories/Proj_Model.v
theories/Proj_Props.v
theories/Site_Model.v
theories/Site_Props.v
theories/Smooth_Model.v
theories/Smooth_Props.v
theories/Dyn_Model.v
theories/Dyn_Props.v
theories/Info_Model.v
theories/Info_Props.v
theories/Soil_Model.v
theories/Soil_Props.v
theories/Met_Model.v
theories/Met_Props.v
theories/Stretch_Model.v
theories/Stretch_Props.v
theories/Setup_Model.v
theories/Setup_Props.v
theories/Import_Model.v
theories/Import_Props.v
theories/Report_Model.v
theories/Report_Props.v
theories/Divfile_Model.v
theories/Divfile_Spec.v
theories/Divfile_Proofs.v
theories/Divfile_Props.v
theories/Provider_Model.v
theories/Provider_Props.v
theories/Z0_Model.v
theories/Z0_Props.v
theories/Density_Model.v
theories/Density_Props.v
theories/Template_Model.v
theories/Template_Spec.v
theories/Template_Proofs.v
theories/Template_Props.v
theories/Wettest_Model.v
theories/Wettest_Props.v
theories/Bundle_Model.v
theories/Bundle_Props.v
theories/Svo_Model.v
theories/Svo_Props.v
theories/Calls_Model.v
theories/Calls_Props.v
theories/Compat_Model.v
theories/Compat_Props.v
theories/Inputs_Model.v
theories/Inputs_Props.v
theories/Clock_Model.v
theories/Clock_Props.v
theories/Vol64_Model.v
theories/Vol64_Props.v
theories/Collate_Model.v
theories/Collate_Props.v
theories/Interp64_Model.v
theories/Interp64_Props.v
theories/Snow64_Model.v
theories/Snow64_Props.v
theories/Net64_Model.v
theories/Net64_Props.v
theories/Usgs_Model.v
theories/Usgs_Spec.v
theories/Usgs_Props.v
theories/Hamil_Model.v
theories/Hamil_Props.v
theories/Hamil2_Props.v
theories/Index_Model.v
theories/Index_Props.v
theories/Chan64_Model.v
theories/Chan64_Props.v
theories/Series_Model.v
theories/Series_Props.v
theories/Series2_Props.v
theories/Tgroup_Model.v
theories/Tgroup_Props.v
theories/Join_Model.v
theories/Join_Props.v
theories/Quarter_Model.v
theories/Quarter_Props.v
theories/Rainfile_Model.v
theories/Rainfile_Props.v
theories/Rfc_Model.v
theories/Rfc_Props.v
theories/Options_Model.v
theories/Options_Props.v
theories/Bound_Model.v
theories/Bound_Props.v
theories/Hlr_Model.v
theories/Hlr_Props.v
theories/Flowcode_Model.v
theories/Flowcode_Props.v
theories/Rtsconv_Model.v
theories/Rtsconv_Props.v
theories/Climtab_Model.v
theories/Climtab_Props.v
theories/Idl_Model.v
theories/Idl_Props.v
theories/Rfcmerge_Model.v
theories/Rfcmerge_Props.v
