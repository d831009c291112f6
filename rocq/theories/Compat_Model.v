(** Model of the variables that the components of the repository exchange: the tables
    _input_var_names, _output_var_names, _var_name_map and _var_units_map of their classes
    (topoflow/components; the lines are given with each table), under the names that
    topoflow/framework/component_repository.xml gives to the components.

    A map holds the pairs of a dict display, the last pair of a key being the one that counts.  The components
    erode_d8_local and dem_smoother have no tables and are left out.  The coupling itself is
    that of Emeli_Model. *)

From Coq Require Import String List Bool.
From Verif Require Import Time_Model Emeli_Model Svo_Model.
Import ListNotations.
Local Open Scope string_scope.

Record tables := Tables { ins : list string; outs : list string; short_names : list (string * string); units : list (string * string) }.

(** channels_base.py 186-193 *)
Definition in_channels_base : list string := ["atmosphere_water__rainfall_volume_flux";
  "glacier_ice__melt_volume_flux";
  "land_surface_water__baseflow_volume_flux";
  "land_surface_water__evaporation_volume_flux";
  "soil_surface_water__infiltration_volume_flux";
  "snowpack__melt_volume_flux";
  "water-liquid__mass-per-volume_density"].
(** channels_base.py 216-276 *)
Definition out_channels_base : list string := ["basin_outlet_water_flow__half_of_fanning_friction_factor";
  "basin_outlet_water_x-section__mean_depth";
  "basin_outlet_water_x-section__peak_time_of_depth";
  "basin_outlet_water_x-section__peak_time_of_volume_flow_rate";
  "basin_outlet_water_x-section__peak_time_of_volume_flux";
  "basin_outlet_water_x-section__time_integral_of_volume_flow_rate";
  "basin_outlet_water_x-section__time_max_of_mean_depth";
  "basin_outlet_water_x-section__time_max_of_volume_flow_rate";
  "basin_outlet_water_x-section__time_max_of_volume_flux";
  "basin_outlet_water_x-section__volume_flow_rate";
  "basin_outlet_water_x-section__volume_flux";
  "canals_entrance_water__volume_flow_rate";
  "channel_bottom_surface__slope";
  "channel_bottom_water_flow__domain_max_of_log_law_roughness_length";
  "channel_bottom_water_flow__domain_min_of_log_law_roughness_length";
  "channel_bottom_water_flow__log_law_roughness_length";
  "channel_bottom_water_flow__magnitude_of_shear_stress";
  "channel_bottom_water_flow__shear_speed";
  "channel_centerline__sinuosity";
  "channel_water__volume";
  "channel_water_flow__froude_number";
  "channel_water_flow__half_of_fanning_friction_factor";
  "channel_water_flow__domain_max_of_manning_n_parameter";
  "channel_water_flow__domain_min_of_manning_n_parameter";
  "channel_water_flow__manning_n_parameter";
  "channel_water_surface__slope";
  "channel_water_x-section__domain_max_of_mean_depth";
  "channel_water_x-section__domain_min_of_mean_depth";
  "channel_water_x-section__domain_max_of_volume_flow_rate";
  "channel_water_x-section__domain_min_of_volume_flow_rate";
  "channel_water_x-section__domain_max_of_volume_flux";
  "channel_water_x-section__domain_min_of_volume_flux";
  "channel_water_x-section__hydraulic_radius";
  "channel_water_x-section__initial_mean_depth";
  "channel_water_x-section__mean_depth";
  "channel_water_x-section__volume_flow_rate";
  "channel_water_x-section__volume_flux";
  "channel_water_x-section__wetted_area";
  "channel_water_x-section__wetted_perimeter";
  "channel_water_x-section_top__width";
  "channel_x-section_trapezoid_bottom__width";
  "channel_x-section_trapezoid_side__flare_angle";
  "land_surface_water__depth";
  "land_surface_water__runoff_volume_flux";
  "land_surface_water__domain_time_integral_of_runoff_volume_flux";
  "model__time_step";
  "model_grid_cell__area";
  "channel_water_x-section__boundary_time_integral_of_volume_flow_rate";
  "river-network_channel_water__initial_volume";
  "river-network_channel_water__volume";
  "land_surface_water__area_integral_of_depth"].
(** channels_base.py 295-384 *)
Definition short_channels_base : list (string * string) := [("atmosphere_water__rainfall_volume_flux", "P_rain");
  ("glacier_ice__melt_volume_flux", "MR");
  ("land_surface_water__baseflow_volume_flux", "GW");
  ("land_surface_water__evaporation_volume_flux", "ET");
  ("soil_surface_water__infiltration_volume_flux", "IN");
  ("snowpack__melt_volume_flux", "SM");
  ("water-liquid__mass-per-volume_density", "rho_H2O");
  ("basin_outlet_water_flow__half_of_fanning_friction_factor", "f_outlet");
  ("basin_outlet_water_x-section__mean_depth", "d_outlet");
  ("basin_outlet_water_x-section__peak_time_of_depth", "Td_peak");
  ("basin_outlet_water_x-section__peak_time_of_volume_flow_rate", "T_peak");
  ("basin_outlet_water_x-section__peak_time_of_volume_flux", "Tu_peak");
  ("basin_outlet_water_x-section__volume_flow_rate", "Q_outlet");
  ("basin_outlet_water_x-section__volume_flux", "u_outlet");
  ("basin_outlet_water_x-section__time_integral_of_volume_flow_rate", "vol_Q");
  ("basin_outlet_water_x-section__time_max_of_mean_depth", "d_peak");
  ("basin_outlet_water_x-section__time_max_of_volume_flow_rate", "Q_peak");
  ("basin_outlet_water_x-section__time_max_of_volume_flux", "u_peak");
  ("canals_entrance_water__volume_flow_rate", "Q_canals_in");
  ("channel_bottom_surface__slope", "S_bed");
  ("channel_bottom_water_flow__domain_max_of_log_law_roughness_length", "z0val_max");
  ("channel_bottom_water_flow__domain_min_of_log_law_roughness_length", "z0val_min");
  ("channel_bottom_water_flow__log_law_roughness_length", "z0val");
  ("channel_bottom_water_flow__magnitude_of_shear_stress", "tau");
  ("channel_bottom_water_flow__shear_speed", "u_star");
  ("channel_centerline__sinuosity", "sinu");
  ("channel_water__volume", "vol");
  ("channel_water_flow__domain_max_of_manning_n_parameter", "nval_max");
  ("channel_water_flow__domain_min_of_manning_n_parameter", "nval_min");
  ("channel_water_flow__froude_number", "froude");
  ("channel_water_flow__half_of_fanning_friction_factor", "f");
  ("channel_water_flow__manning_n_parameter", "nval");
  ("channel_water_surface__slope", "S_free");
  ("channel_water_x-section__domain_max_of_mean_depth", "d_max");
  ("channel_water_x-section__domain_min_of_mean_depth", "d_min");
  ("channel_water_x-section__domain_max_of_volume_flow_rate", "Q_max");
  ("channel_water_x-section__domain_min_of_volume_flow_rate", "Q_min");
  ("channel_water_x-section__domain_max_of_volume_flux", "u_max");
  ("channel_water_x-section__domain_min_of_volume_flux", "u_min");
  ("channel_water_x-section__hydraulic_radius", "Rh");
  ("channel_water_x-section__initial_mean_depth", "d0");
  ("channel_water_x-section__mean_depth", "d");
  ("channel_water_x-section__volume_flow_rate", "Q");
  ("channel_water_x-section__volume_flux", "u");
  ("channel_water_x-section__wetted_area", "A_wet");
  ("channel_water_x-section__wetted_perimeter", "P_wet");
  ("channel_x-section_trapezoid_bottom__width", "width");
  ("channel_x-section_trapezoid_side__flare_angle", "angle");
  ("land_surface_water__depth", "df");
  ("land_surface_water__domain_time_integral_of_runoff_volume_flux", "vol_R");
  ("land_surface_water__runoff_volume_flux", "R");
  ("model__time_step", "dt");
  ("model_grid_cell__area", "da");
  ("canals__count", "n_canals");
  ("canals_entrance__x_coordinate", "canals_in_x");
  ("canals_entrance__y_coordinate", "canals_in_y");
  ("canals_entrance_water__volume_fraction", "Q_canals_fraction");
  ("canals_exit__x_coordinate", "canals_out_x");
  ("canals_exit__y_coordinate", "canals_out_y");
  ("canals_exit_water__volume_flow_rate", "Q_canals_out");
  ("sinks__count", "n_sinks");
  ("sinks__x_coordinate", "sinks_x");
  ("sinks__y_coordinate", "sinks_y");
  ("sinks_water__volume_flow_rate", "Q_sinks");
  ("sources__count", "n_sources");
  ("sources__x_coordinate", "sources_x");
  ("sources__y_coordinate", "sources_y");
  ("sources_water__volume_flow_rate", "Q_sources");
  ("channel_water_x-section__boundary_time_integral_of_volume_flow_rate", "vol_edge");
  ("river-network_channel_water__initial_volume", "vol_chan_sum0");
  ("river-network_channel_water__volume", "vol_chan_sum");
  ("land_surface_water__area_integral_of_depth", "vol_flood_sum")].
(** channels_base.py 387-468 *)
Definition units_channels_base : list (string * string) := [("atmosphere_water__rainfall_volume_flux", "m s-1");
  ("glacier_ice__melt_volume_flux", "m s-1");
  ("land_surface_water__baseflow_volume_flux", "m s-1");
  ("land_surface_water__evaporation_volume_flux", "m s-1");
  ("soil_surface_water__infiltration_volume_flux", "m s-1");
  ("snowpack__melt_volume_flux", "m s-1");
  ("water-liquid__mass-per-volume_density", "kg m-3");
  ("basin_outlet_water_flow__half_of_fanning_friction_factor", "1");
  ("basin_outlet_water_x-section__mean_depth", "m");
  ("basin_outlet_water_x-section__peak_time_of_depth", "min");
  ("basin_outlet_water_x-section__peak_time_of_volume_flow_rate", "min");
  ("basin_outlet_water_x-section__peak_time_of_volume_flux", "min");
  ("basin_outlet_water_x-section__time_integral_of_volume_flow_rate", "m3");
  ("basin_outlet_water_x-section__time_max_of_mean_depth", "m");
  ("basin_outlet_water_x-section__time_max_of_volume_flow_rate", "m3 s-1");
  ("basin_outlet_water_x-section__time_max_of_volume_flux", "m s-1");
  ("basin_outlet_water_x-section__volume_flow_rate", "m3 s-1");
  ("basin_outlet_water_x-section__volume_flux", "m s-1");
  ("canals_entrance_water__volume_flow_rate", "m3 s-1");
  ("channel_bottom_surface__slope", "1");
  ("channel_bottom_water_flow__domain_max_of_log_law_roughness_length", "m");
  ("channel_bottom_water_flow__domain_min_of_log_law_roughness_length", "m");
  ("channel_bottom_water_flow__log_law_roughness_length", "m");
  ("channel_bottom_water_flow__magnitude_of_shear_stress", "kg m-1 s-2");
  ("channel_bottom_water_flow__shear_speed", "m s-1");
  ("channel_centerline__sinuosity", "1");
  ("channel_water__volume", "m3");
  ("channel_water_flow__froude_number", "1");
  ("channel_water_flow__half_of_fanning_friction_factor", "1");
  ("channel_water_flow__manning_n_parameter", "m-1/3 s");
  ("channel_water_flow__domain_max_of_manning_n_parameter", "m-1/3 s");
  ("channel_water_flow__domain_min_of_manning_n_parameter", "m-1/3 s");
  ("channel_water_surface__slope", "1");
  ("channel_water_x-section__domain_max_of_mean_depth", "m");
  ("channel_water_x-section__domain_min_of_mean_depth", "m");
  ("channel_water_x-section__domain_max_of_volume_flow_rate", "m3 s-1");
  ("channel_water_x-section__domain_min_of_volume_flow_rate", "m3 s-1");
  ("channel_water_x-section__domain_max_of_volume_flux", "m s-1");
  ("channel_water_x-section__domain_min_of_volume_flux", "m s-1");
  ("channel_water_x-section__hydraulic_radius", "m");
  ("channel_water_x-section__initial_mean_depth", "m");
  ("channel_water_x-section__mean_depth", "m");
  ("channel_water_x-section__volume_flow_rate", "m3 s-1");
  ("channel_water_x-section__volume_flux", "m s-1");
  ("channel_water_x-section__wetted_area", "m2");
  ("channel_water_x-section__wetted_perimeter", "m");
  ("channel_x-section_trapezoid_bottom__width", "m");
  ("channel_x-section_trapezoid_side__flare_angle", "rad");
  ("land_surface_water__depth", "m");
  ("land_surface_water__domain_time_integral_of_runoff_volume_flux", "m3");
  ("land_surface_water__runoff_volume_flux", "m s-1");
  ("model__time_step", "s");
  ("model_grid_cell__area", "m2");
  ("canals__count", "1");
  ("canals_entrance__x_coordinate", "m");
  ("canals_entrance__y_coordinate", "m");
  ("canals_entrance_water__volume_fraction", "1");
  ("canals_exit__x_coordinate", "m");
  ("canals_exit__y_coordinate", "m");
  ("canals_exit_water__volume_flow_rate", "m3 s-1");
  ("sinks__count", "1");
  ("sinks__x_coordinate", "m");
  ("sinks__y_coordinate", "m");
  ("sinks_water__volume_flow_rate", "m3 s-1");
  ("sources__count", "1");
  ("sources__x_coordinate", "m");
  ("sources__y_coordinate", "m");
  ("sources_water__volume_flow_rate", "m3 s-1");
  ("channel_water_x-section__boundary_time_integral_of_volume_flow_rate", "m3");
  ("river-network_channel_water__initial_volume", "m3");
  ("river-network_channel_water__volume", "m3");
  ("land_surface_water__area_integral_of_depth", "m3")].
(** HIS_base.py 79-79 *)
Definition in_HIS_base : list string := [].
(** HIS_base.py 82-82 *)
Definition out_HIS_base : list string := [].
(** HIS_base.py 84-84 *)
Definition short_HIS_base : list (string * string) := [].
(** HIS_base.py 86-86 *)
Definition units_HIS_base : list (string * string) := [].
(** diversions_fraction_method.py 110-110 *)
Definition in_diversions_fraction_method : list string := [].
(** diversions_fraction_method.py 113-129 *)
Definition out_diversions_fraction_method : list string := ["canals__count";
  "canals_entrance_water__volume_fraction";
  "canals_entrance__x_coordinate";
  "canals_entrance__y_coordinate";
  "canals_exit_water__volume_flow_rate";
  "canals_exit__x_coordinate";
  "canals_exit__y_coordinate";
  "model__time_step";
  "sinks_water__volume_flow_rate";
  "sinks__count";
  "sinks__x_coordinate";
  "sinks__y_coordinate";
  "sources_water__volume_flow_rate";
  "sources__count";
  "sources__x_coordinate";
  "sources__y_coordinate"].
(** diversions_fraction_method.py 131-149 *)
Definition short_diversions_fraction_method : list (string * string) := [("canals_entrance_water__volume_flow_rate", "Q_canals_in");
  ("canals__count", "n_canals");
  ("canals_entrance__x_coordinate", "canals_in_x");
  ("canals_entrance__y_coordinate", "canals_in_y");
  ("canals_entrance_water__volume_fraction", "Q_canals_fraction");
  ("canals_exit__x_coordinate", "canals_out_x");
  ("canals_exit__y_coordinate", "canals_out_y");
  ("canals_exit_water__volume_flow_rate", "Q_canals_out");
  ("model__time_step", "dt");
  ("sinks__count", "n_sinks");
  ("sinks__x_coordinate", "sinks_x");
  ("sinks__y_coordinate", "sinks_y");
  ("sinks_water__volume_flow_rate", "Q_sinks");
  ("sources__count", "n_sources");
  ("sources__x_coordinate", "sources_x");
  ("sources__y_coordinate", "sources_y");
  ("sources_water__volume_flow_rate", "Q_sources")].
(** diversions_fraction_method.py 151-169 *)
Definition units_diversions_fraction_method : list (string * string) := [("canals_entrance_water__volume_flow_rate", "m3 s-1");
  ("canals__count", "1");
  ("canals_entrance__x_coordinate", "m");
  ("canals_entrance__y_coordinate", "m");
  ("canals_entrance_water__volume_fraction", "1");
  ("canals_exit__x_coordinate", "m");
  ("canals_exit__y_coordinate", "m");
  ("canals_exit_water__volume_flow_rate", "m3 s-1");
  ("model__time_step", "s");
  ("sinks__count", "1");
  ("sinks__x_coordinate", "m");
  ("sinks__y_coordinate", "m");
  ("sinks_water__volume_flow_rate", "m3 s-1");
  ("sources__count", "1");
  ("sources__x_coordinate", "m");
  ("sources__y_coordinate", "m");
  ("sources_water__volume_flow_rate", "m3 s-1")].
(** evap_energy_balance.py 86-91 *)
Definition in_evap_energy_balance : list string := ["atmosphere_bottom_air__temperature";
  "atmosphere_bottom_air_land_net-latent-heat__energy_flux";
  "land_surface_net-total-energy__energy_flux";
  "land_surface__temperature";
  "snowpack__depth"].
(** evap_energy_balance.py 116-120 *)
Definition out_evap_energy_balance : list string := ["land_surface_soil__conduction_heat_flux";
  "land_surface_water__evaporation_volume_flux";
  "land_surface_water__domain_time_integral_of_evaporation_volume_flux";
  "model__time_step"].
(** evap_energy_balance.py 138-156 *)
Definition short_evap_energy_balance : list (string * string) := [("atmosphere_bottom_air__temperature", "T_air");
  ("atmosphere_bottom_air_land_net-latent-heat__energy_flux", "Qe");
  ("land_surface_net-total-energy__energy_flux", "Q_sum");
  ("land_surface__temperature", "T_surf");
  ("snowpack__depth", "h_snow");
  ("land_surface_soil__conduction_heat_flux", "Qc");
  ("land_surface_water__domain_time_integral_of_evaporation_volume_flux", "vol_ET");
  ("land_surface_water__evaporation_volume_flux", "ET");
  ("model__time_step", "dt");
  ("land_surface__elevation", "DEM");
  ("soil__reference_depth_temperature", "T_soil_x");
  ("soil__temperature_reference_depth", "soil_x");
  ("soil__thermal_conductivity", "K_soil")].
(** evap_energy_balance.py 169-187 *)
Definition units_evap_energy_balance : list (string * string) := [("atmosphere_bottom_air__temperature", "deg_C");
  ("atmosphere_bottom_air_land_net-latent-heat__energy_flux", "W m-2");
  ("land_surface_net-total-energy__energy_flux", "W m-2");
  ("land_surface__temperature", "deg_C");
  ("snowpack__depth", "m");
  ("land_surface_soil__conduction_heat_flux", "W m-2");
  ("land_surface_water__domain_time_integral_of_evaporation_volume_flux", "m3");
  ("land_surface_water__evaporation_volume_flux", "m s-1");
  ("model__time_step", "s");
  ("land_surface__elevation", "m");
  ("soil__reference_depth_temperature", "deg_C");
  ("soil__temperature_reference_depth", "m");
  ("soil__thermal_conductivity", "W m-1 K-1]")].
(** evap_priestley_taylor.py 97-102 *)
Definition in_evap_priestley_taylor : list string := ["atmosphere_bottom_air__temperature";
  "channel_water__volume";
  "land_surface_net-longwave-radiation__energy_flux";
  "land_surface_net-shortwave-radiation__energy_flux";
  "land_surface__temperature"].
(** evap_priestley_taylor.py 128-132 *)
Definition out_evap_priestley_taylor : list string := ["land_surface_soil__conduction_heat_flux";
  "land_surface_water__domain_time_integral_of_evaporation_volume_flux";
  "land_surface_water__evaporation_volume_flux";
  "model__time_step"].
(** evap_priestley_taylor.py 151-170 *)
Definition short_evap_priestley_taylor : list (string * string) := [("atmosphere_bottom_air__temperature", "T_air");
  ("channel_water__volume", "vol");
  ("land_surface__temperature", "T_surf");
  ("land_surface_net-longwave-radiation__energy_flux", "Qn_LW");
  ("land_surface_net-shortwave-radiation__energy_flux", "Qn_SW");
  ("land_surface_soil__conduction_heat_flux", "Qc");
  ("land_surface_water__domain_time_integral_of_evaporation_volume_flux", "vol_ET");
  ("land_surface_water__evaporation_volume_flux", "ET");
  ("model__time_step", "dt");
  ("land_surface__elevation", "DEM");
  ("land_surface_water__priestley-taylor_alpha_coefficient", "alpha");
  ("soil__reference_depth_temperature", "T_soil_x");
  ("soil__temperature_reference_depth", "soil_x");
  ("soil__thermal_conductivity", "K_soil")].
(** evap_priestley_taylor.py 182-201 *)
Definition units_evap_priestley_taylor : list (string * string) := [("atmosphere_bottom_air__temperature", "deg_C");
  ("channel_water__volume", "m3");
  ("land_surface__temperature", "deg_C");
  ("land_surface_net-longwave-radiation__energy_flux", "W m-2");
  ("land_surface_net-shortwave-radiation__energy_flux", "W m-2");
  ("land_surface_soil__conduction_heat_flux", "W m-2");
  ("land_surface_water__evaporation_volume_flux", "m s-1");
  ("land_surface_water__domain_time_integral_of_evaporation_volume_flux", "m3");
  ("model__time_step", "s");
  ("land_surface__elevation", "m");
  ("land_surface_water__priestley-taylor_alpha_coefficient", "1");
  ("soil__reference_depth_temperature", "deg_C");
  ("soil__temperature_reference_depth", "m");
  ("soil__thermal_conductivity", "W m-1 K-1]")].
(** evap_read_file.py 69-70 *)
Definition in_evap_read_file : list string := ["channel_water_x-section__mean_depth"].
(** evap_read_file.py 72-76 *)
Definition out_evap_read_file : list string := ["land_surface_water__evaporation_volume_flux";
  "land_surface_water__domain_time_integral_of_evaporation_volume_flux";
  "model_grid_cell__area";
  "model__time_step"].
(** evap_read_file.py 78-83 *)
Definition short_evap_read_file : list (string * string) := [("channel_water_x-section__mean_depth", "d");
  ("land_surface_water__evaporation_volume_flux", "ET");
  ("land_surface_water__domain_time_integral_of_evaporation_volume_flux", "vol_ET");
  ("model_grid_cell__area", "da");
  ("model__time_step", "dt")].
(** evap_read_file.py 85-90 *)
Definition units_evap_read_file : list (string * string) := [("channel_water_x-section__mean_depth", "m");
  ("land_surface_water__evaporation_volume_flux", "m s-1");
  ("land_surface_water__domain_time_integral_of_evaporation_volume_flux", "m3");
  ("model_grid_cell__area", "m2");
  ("model__time_step", "s")].
(** ice_base.py 101-101 *)
Definition in_ice_base : list string := [].
(** ice_base.py 121-129 *)
Definition out_ice_base : list string := ["glacier_ice__domain_time_integral_of_melt_volume_flux";
  "glacier_ice__melt_volume_flux";
  "glacier_top_surface__elevation";
  "glacier_ice__thickness";
  "model_grid_cell__x_length";
  "model_grid_cell__y_length";
  "model__time_step"].
(** ice_base.py 131-142 *)
Definition short_ice_base : list (string * string) := [("land_surface__elevation", "Zb");
  ("glacier_ice__domain_time_integral_of_melt_volume_flux", "vol_MR");
  ("glacier_ice__melt_volume_flux", "mr_ice");
  ("glacier_top_surface__elevation", "z_ice");
  ("glacier_ice__thickness", "h_ice");
  ("model_grid_cell__x_length", "dx");
  ("model_grid_cell__y_length", "dy");
  ("model__time_step", "dt")].
(** ice_base.py 144-155 *)
Definition units_ice_base : list (string * string) := [("land_surface__elevation", "m");
  ("glacier_ice__domain_time_integral_of_melt_volume_flux", "m3");
  ("glacier_ice__melt_volume_flux", "m s-1");
  ("glacier_top_surface__elevation", "m");
  ("glacier_ice__thickness", "m");
  ("model_grid_cell__x_length", "m");
  ("model_grid_cell__y_length", "m");
  ("model__time_step", "yr")].
(** glacier_energy_balance.py 86-94 *)
Definition in_glacier_energy_balance : list string := ["atmosphere_bottom_air__mass-per-volume_density";
  "atmosphere_bottom_air__mass-specific_isobaric_heat_capacity";
  "atmosphere_bottom_air__temperature";
  "atmosphere_bottom_air_water-vapor__relative_saturation";
  "atmosphere_water__snowfall_leq-volume_flux";
  "land_surface__temperature";
  "land_surface_net-total-energy__energy_flux";
  "water-liquid__mass-per-volume_density"].
(** glacier_energy_balance.py 121-145 *)
Definition out_glacier_energy_balance : list string := ["model__time_step";
  "snowpack__domain_time_integral_of_melt_volume_flux";
  "snowpack__initial_domain_integral_of_liquid-equivalent_depth";
  "snowpack__domain_integral_of_liquid-equivalent_depth";
  "snowpack__energy-per-area_cold_content";
  "snowpack__depth";
  "snowpack__initial_depth";
  "snowpack__initial_liquid-equivalent_depth";
  "snowpack__liquid-equivalent_depth";
  "snowpack__melt_volume_flux";
  "snowpack__z_mean_of_mass-per-volume_density";
  "snowpack__z_mean_of_mass-specific_isobaric_heat_capacity";
  "glacier_ice__domain_time_integral_of_melt_volume_flux";
  "glacier__initial_domain_integral_of_liquid-equivalent_depth";
  "glacier__domain_integral_of_liquid-equivalent_depth";
  "glacier__energy-per-area_cold_content";
  "glacier_ice__thickness";
  "glacier_ice__initial_thickness";
  "glacier__initial_liquid_equivalent_depth";
  "glacier_ice__melt_volume_flux";
  "glacier_ice__mass-per-volume_density";
  "glacier_ice__mass-specific_isobaric_heat_capacity";
  "cryosphere__melt_volume_flux";
  "cryosphere__domain_time_integral_of_melt_volume_flux"].
(** glacier_energy_balance.py 147-191 *)
Definition short_glacier_energy_balance : list (string * string) := [("atmosphere_bottom_air__mass-per-volume_density", "rho_air");
  ("atmosphere_bottom_air__mass-specific_isobaric_heat_capacity", "Cp_air");
  ("atmosphere_bottom_air__temperature", "T_air");
  ("atmosphere_bottom_air_water-vapor__relative_saturation", "RH");
  ("atmosphere_water__snowfall_leq-volume_flux", "P_snow");
  ("land_surface_net-total-energy__energy_flux", "Q_sum");
  ("land_surface__temperature", "T_surf");
  ("water-liquid__mass-per-volume_density", "rho_H2O");
  ("model__time_step", "dt");
  ("snowpack__domain_time_integral_of_melt_volume_flux", "vol_SM");
  ("snowpack__initial_domain_integral_of_liquid-equivalent_depth", "vol_swe_start");
  ("snowpack__domain_integral_of_liquid-equivalent_depth", "vol_swe");
  ("snowpack__depth", "h_snow");
  ("snowpack__energy-per-area_cold_content", "Eccs");
  ("snowpack__initial_depth", "h0_snow");
  ("snowpack__initial_liquid-equivalent_depth", "h0_swe");
  ("snowpack__liquid-equivalent_depth", "h_swe");
  ("snowpack__melt_volume_flux", "SM");
  ("snowpack__z_mean_of_mass-per-volume_density", "rho_snow");
  ("snowpack__z_mean_of_mass-specific_isobaric_heat_capacity", "Cp_snow");
  ("glacier_ice__domain_time_integral_of_melt_volume_flux", "vol_IM");
  ("glacier__initial_domain_integral_of_liquid-equivalent_depth", "vol_iwe_start");
  ("glacier__domain_integral_of_liquid-equivalent_depth", "vol_iwe");
  ("glacier__energy-per-area_cold_content", "Ecci");
  ("glacier_ice__thickness", "h_ice");
  ("glacier_ice__initial_thickness", "h0_ice");
  ("glacier__initial_liquid_equivalent_depth", "h0_iwe");
  ("glacier_ice__melt_volume_flux", "IM");
  ("glacier_ice__mass-per-volume_density", "rho_ice");
  ("glacier_ice__mass-specific_isobaric_heat_capacity", "Cp_ice");
  ("cryosphere__melt_volume_flux", "M_total");
  ("cryosphere__domain_time_integral_of_melt_volume_flux", "vol_M_total")].
(** glacier_energy_balance.py 197-241 *)
Definition units_glacier_energy_balance : list (string * string) := [("atmosphere_bottom_air__mass-per-volume_density", "kg m-3");
  ("atmosphere_bottom_air__mass-specific_isobaric_heat_capacity", "J kg-1 K-1");
  ("atmosphere_bottom_air__temperature", "deg_C");
  ("atmosphere_bottom_air_water-vapor__relative_saturation", "1");
  ("atmosphere_water__snowfall_leq-volume_flux", "m s-1");
  ("land_surface_net-total-energy__energy_flux", "W m-2");
  ("land_surface__temperature", "deg_C");
  ("water-liquid__mass-per-volume_density", "kg m-3");
  ("model__time_step", "s");
  ("snowpack__domain_time_integral_of_melt_volume_flux", "m3");
  ("snowpack__initial_domain_integral_of_liquid-equivalent_depth", "m3");
  ("snowpack__domain_integral_of_liquid-equivalent_depth", "m3");
  ("snowpack__depth", "m");
  ("snowpack__energy-per-area_cold_content", "J m-2");
  ("snowpack__initial_depth", "m");
  ("snowpack__initial_liquid-equivalent_depth", "m");
  ("snowpack__liquid-equivalent_depth", "m");
  ("snowpack__melt_volume_flux", "m s-1");
  ("snowpack__z_mean_of_mass-per-volume_density", "kg m-3");
  ("snowpack__z_mean_of_mass-specific_isobaric_heat_capacity", "J kg-1 K-1");
  ("glacier_ice__domain_time_integral_of_melt_volume_flux", "m3");
  ("glacier__initial_domain_integral_of_liquid-equivalent_depth", "m3");
  ("glacier__domain_integral_of_liquid-equivalent_depth", "m3");
  ("glacier__energy-per-area_cold_content", "J m-2");
  ("glacier_ice__thickness", "m");
  ("glacier_ice__initial_thickness", "m");
  ("glacier__initial_liquid_equivalent_depth", "m");
  ("glacier_ice__melt_volume_flux", "m s-1");
  ("glacier_ice__mass-per-volume_density", "kg m-3");
  ("glacier_ice__mass-specific_isobaric_heat_capacity", "J kg-1 K-1");
  ("cryosphere__melt_volume_flux", "m s-1")].
(** infil_green_ampt.py 85-91 *)
Definition in_infil_green_ampt : list string := ["atmosphere_water__rainfall_volume_flux";
  "glacier_ice__melt_volume_flux";
  "land_surface__elevation";
  "land_surface_water__evaporation_volume_flux";
  "snowpack__melt_volume_flux";
  "soil_water_sat-zone_top_surface__elevation"].
(** infil_green_ampt.py 99-115 *)
Definition out_infil_green_ampt : list string := ["model__time_step";
  "soil_surface_water__domain_time_integral_of_infiltration_volume_flux";
  "soil_surface_water__infiltration_volume_flux";
  "soil_surface_water__time_integral_of_infiltration_volume_flux";
  "soil_water__green-ampt_capillary_length";
  "soil_water__potential_infiltration_volume_flux";
  "soil_water__initial_hydraulic_conductivity";
  "soil_water__initial_volume_fraction";
  "soil_water__saturated_hydraulic_conductivity";
  "soil_water__saturated_volume_fraction";
  "soil_water__initial_domain_integral_of_volume_fraction";
  "soil_water__domain_integral_of_volume_fraction";
  "soil_water_flow__z_component_of_darcy_velocity";
  "soil_water_sat-zone_top__domain_time_integral_of_recharge_volume_flux";
  "soil_water_sat-zone_top__recharge_volume_flux"].
(** infil_green_ampt.py 117-140 *)
Definition short_infil_green_ampt : list (string * string) := [("atmosphere_water__rainfall_volume_flux", "P_rain");
  ("glacier_ice__melt_volume_flux", "MR");
  ("land_surface__elevation", "elev");
  ("land_surface_water__evaporation_volume_flux", "ET");
  ("snowpack__melt_volume_flux", "SM");
  ("soil_water_sat-zone_top_surface__elevation", "h_table");
  ("model__time_step", "dt");
  ("soil_surface_water__domain_time_integral_of_infiltration_volume_flux", "vol_IN");
  ("soil_surface_water__infiltration_volume_flux", "IN");
  ("soil_surface_water__time_integral_of_infiltration_volume_flux", "I");
  ("soil_water__initial_domain_integral_of_volume_fraction", "vol_soil_start");
  ("soil_water__domain_integral_of_volume_fraction", "vol_soil");
  ("soil_water__green-ampt_capillary_length", "G");
  ("soil_water__initial_hydraulic_conductivity", "Ki");
  ("soil_water__initial_volume_fraction", "qi");
  ("soil_water__potential_infiltration_volume_flux", "fc");
  ("soil_water__saturated_hydraulic_conductivity", "Ks");
  ("soil_water__saturated_volume_fraction", "qs");
  ("soil_water_flow__z_component_of_darcy_velocity", "v");
  ("soil_water_sat-zone_top__domain_time_integral_of_recharge_volume_flux", "vol_Rg");
  ("soil_water_sat-zone_top__recharge_volume_flux", "Rg")].
(** infil_green_ampt.py 142-165 *)
Definition units_infil_green_ampt : list (string * string) := [("atmosphere_water__rainfall_volume_flux", "m s-1");
  ("glacier_ice__melt_volume_flux", "m s-1");
  ("land_surface__elevation", "m");
  ("land_surface_water__evaporation_volume_flux", "m s-1");
  ("snowpack__melt_volume_flux", "m s-1");
  ("soil_water_sat-zone_top_surface__elevation", "m");
  ("model__time_step", "s");
  ("soil_surface_water__domain_time_integral_of_infiltration_volume_flux", "m3");
  ("soil_surface_water__infiltration_volume_flux", "m s-1");
  ("soil_surface_water__time_integral_of_infiltration_volume_flux", "m");
  ("soil_water__initial_domain_integral_of_volume_fraction", "m3");
  ("soil_water__domain_integral_of_volume_fraction", "m3");
  ("soil_water__green-ampt_capillary_length", "m");
  ("soil_water__initial_hydraulic_conductivity", "m s-1");
  ("soil_water__initial_volume_fraction", "1");
  ("soil_water__potential_infiltration_volume_flux", "m s-1");
  ("soil_water__saturated_hydraulic_conductivity", "m s-1");
  ("soil_water__saturated_volume_fraction", "1");
  ("soil_water_flow__z_component_of_darcy_velocity", "m s-1");
  ("soil_water_sat-zone_top__domain_time_integral_of_recharge_volume_flux", "m3");
  ("soil_water_sat-zone_top__recharge_volume_flux", "m s-1")].
(** infil_smith_parlange.py 83-89 *)
Definition in_infil_smith_parlange : list string := ["atmosphere_water__rainfall_volume_flux";
  "glacier_ice__melt_volume_flux";
  "land_surface__elevation";
  "land_surface_water__evaporation_volume_flux";
  "snowpack__melt_volume_flux";
  "soil_water_sat-zone_top_surface__elevation"].
(** infil_smith_parlange.py 93-110 *)
Definition out_infil_smith_parlange : list string := ["model__time_step";
  "soil_surface_water__domain_time_integral_of_infiltration_volume_flux";
  "soil_surface_water__infiltration_volume_flux";
  "soil_surface_water__time_integral_of_infiltration_volume_flux";
  "soil_water__initial_domain_integral_of_volume_fraction";
  "soil_water__domain_integral_of_volume_fraction";
  "soil_water__green-ampt_capillary_length";
  "soil_water__potential_infiltration_volume_flux";
  "soil_water__initial_hydraulic_conductivity";
  "soil_water__initial_volume_fraction";
  "soil_water__saturated_hydraulic_conductivity";
  "soil_water__saturated_volume_fraction";
  "soil_water__smith-parlange_gamma_parameter";
  "soil_water_flow__z_component_of_darcy_velocity";
  "soil_water_sat-zone_top__domain_time_integral_of_recharge_volume_flux";
  "soil_water_sat-zone_top__recharge_volume_flux"].
(** infil_smith_parlange.py 112-136 *)
Definition short_infil_smith_parlange : list (string * string) := [("atmosphere_water__rainfall_volume_flux", "P_rain");
  ("glacier_ice__melt_volume_flux", "MR");
  ("land_surface__elevation", "elev");
  ("land_surface_water__evaporation_volume_flux", "ET");
  ("snowpack__melt_volume_flux", "SM");
  ("soil_water_sat-zone_top_surface__elevation", "h_table");
  ("model__time_step", "dt");
  ("soil_surface_water__domain_time_integral_of_infiltration_volume_flux", "vol_IN");
  ("soil_surface_water__infiltration_volume_flux", "IN");
  ("soil_surface_water__time_integral_of_infiltration_volume_flux", "I");
  ("soil_water__initial_domain_integral_of_volume_fraction", "vol_soil_start");
  ("soil_water__domain_integral_of_volume_fraction", "vol_soil");
  ("soil_water__green-ampt_capillary_length", "G");
  ("soil_water__initial_hydraulic_conductivity", "Ki");
  ("soil_water__initial_volume_fraction", "qi");
  ("soil_water__potential_infiltration_volume_flux", "fc");
  ("soil_water__saturated_hydraulic_conductivity", "Ks");
  ("soil_water__saturated_volume_fraction", "qs");
  ("soil_water__smith-parlange_gamma_parameter", "gam");
  ("soil_water_flow__z_component_of_darcy_velocity", "v");
  ("soil_water_sat-zone_top__domain_time_integral_of_recharge_volume_flux", "vol_Rg");
  ("soil_water_sat-zone_top__recharge_volume_flux", "Rg")].
(** infil_smith_parlange.py 138-162 *)
Definition units_infil_smith_parlange : list (string * string) := [("atmosphere_water__rainfall_volume_flux", "m s-1");
  ("glacier_ice__melt_volume_flux", "m s-1");
  ("land_surface__elevation", "m");
  ("land_surface_water__evaporation_volume_flux", "m s-1");
  ("snowpack__melt_volume_flux", "m s-1");
  ("soil_water_sat-zone_top_surface__elevation", "m");
  ("model__time_step", "s");
  ("soil_surface_water__time_integral_of_infiltration_volume_flux", "m");
  ("soil_surface_water__infiltration_volume_flux", "m s-1");
  ("soil_surface_water__domain_time_integral_of_infiltration_volume_flux", "m3");
  ("soil_water__initial_domain_integral_of_volume_fraction", "m3");
  ("soil_water__domain_integral_of_volume_fraction", "m3");
  ("soil_water__green-ampt_capillary_length", "m");
  ("soil_water__initial_hydraulic_conductivity", "m s-1");
  ("soil_water__initial_volume_fraction", "1");
  ("soil_water__potential_infiltration_volume_flux", "m s-1");
  ("soil_water__saturated_hydraulic_conductivity", "m s-1");
  ("soil_water__saturated_volume_fraction", "1");
  ("soil_water__smith-parlange_gamma_parameter", "1");
  ("soil_water_flow__z_component_of_darcy_velocity", "m s-1");
  ("soil_water_sat-zone_top__domain_time_integral_of_recharge_volume_flux", "m3");
  ("soil_water_sat-zone_top__recharge_volume_flux", "m s-1")].
(** infil_beven.py 84-90 *)
Definition in_infil_beven : list string := ["atmosphere_water__rainfall_volume_flux";
  "glacier_ice__melt_volume_flux";
  "land_surface__elevation";
  "land_surface_water__evaporation_volume_flux";
  "snowpack__melt_volume_flux";
  "soil_water_sat-zone_top_surface__elevation"].
(** infil_beven.py 103-119 *)
Definition out_infil_beven : list string := ["model__time_step";
  "soil_surface_water__domain_time_integral_of_infiltration_volume_flux";
  "soil_surface_water__infiltration_volume_flux";
  "soil_surface_water__time_integral_of_infiltration_volume_flux";
  "soil_water__initial_domain_integral_of_volume_fraction";
  "soil_water__domain_integral_of_volume_fraction";
  "soil_water__green-ampt_capillary_length";
  "soil_water__potential_infiltration_volume_flux";
  "soil_water__initial_hydraulic_conductivity";
  "soil_water__initial_volume_fraction";
  "soil_water__saturated_hydraulic_conductivity";
  "soil_water__saturated_volume_fraction";
  "soil_water_flow__z_component_of_darcy_velocity";
  "soil_water_sat-zone_top__domain_time_integral_of_recharge_volume_flux";
  "soil_water_sat-zone_top__recharge_volume_flux"].
(** infil_beven.py 122-145 *)
Definition short_infil_beven : list (string * string) := [("atmosphere_water__rainfall_volume_flux", "P_rain");
  ("glacier_ice__melt_volume_flux", "MR");
  ("land_surface__elevation", "elev");
  ("land_surface_water__evaporation_volume_flux", "ET");
  ("snowpack__melt_volume_flux", "SM");
  ("soil_water_sat-zone_top_surface__elevation", "h_table");
  ("model__time_step", "dt");
  ("soil_surface_water__domain_time_integral_of_infiltration_volume_flux", "vol_IN");
  ("soil_surface_water__infiltration_volume_flux", "IN");
  ("soil_surface_water__time_integral_of_infiltration_volume_flux", "I");
  ("soil_water__initial_domain_integral_of_volume_fraction", "vol_soil_start");
  ("soil_water__domain_integral_of_volume_fraction", "vol_soil");
  ("soil_water__green-ampt_capillary_length", "G");
  ("soil_water__initial_hydraulic_conductivity", "Ki");
  ("soil_water__initial_volume_fraction", "qi");
  ("soil_water__potential_infiltration_volume_flux", "fc");
  ("soil_water__saturated_hydraulic_conductivity", "Ks");
  ("soil_water__saturated_volume_fraction", "qs");
  ("soil_water_flow__z_component_of_darcy_velocity", "v");
  ("soil_water_sat-zone_top__domain_time_integral_of_recharge_volume_flux", "vol_Rg");
  ("soil_water_sat-zone_top__recharge_volume_flux", "Rg")].
(** infil_beven.py 147-170 *)
Definition units_infil_beven : list (string * string) := [("atmosphere_water__rainfall_volume_flux", "m s-1");
  ("glacier_ice__melt_volume_flux", "m s-1");
  ("land_surface__elevation", "m");
  ("land_surface_water__evaporation_volume_flux", "m s-1");
  ("snowpack__melt_volume_flux", "m s-1");
  ("soil_water_sat-zone_top_surface__elevation", "m");
  ("model__time_step", "s");
  ("soil_surface_water__domain_time_integral_of_infiltration_volume_flux", "m3");
  ("soil_surface_water__infiltration_volume_flux", "m s-1");
  ("soil_surface_water__time_integral_of_infiltration_volume_flux", "m");
  ("soil_water__initial_domain_integral_of_volume_fraction", "m3");
  ("soil_water__domain_integral_of_volume_fraction", "m3");
  ("soil_water__green-ampt_capillary_length", "m");
  ("soil_water__initial_hydraulic_conductivity", "m s-1");
  ("soil_water__initial_volume_fraction", "1");
  ("soil_water__potential_infiltration_volume_flux", "m s-1");
  ("soil_water__saturated_hydraulic_conductivity", "m s-1");
  ("soil_water__saturated_volume_fraction", "1");
  ("soil_water_flow__z_component_of_darcy_velocity", "m s-1");
  ("soil_water_sat-zone_top__domain_time_integral_of_recharge_volume_flux", "m3");
  ("soil_water_sat-zone_top__recharge_volume_flux", "m s-1")].
(** infil_richards_1D.py 196-202 *)
Definition in_infil_richards_1D : list string := ["atmosphere_water__rainfall_volume_flux";
  "glacier_ice__melt_volume_flux";
  "land_surface__elevation";
  "land_surface_water__evaporation_volume_flux";
  "snowpack__melt_volume_flux";
  "soil_water_sat-zone_top_surface__elevation"].
(** infil_richards_1D.py 218-249 *)
Definition out_infil_richards_1D : list string := ["model__time_step";
  "soil_surface_water__domain_time_integral_of_infiltration_volume_flux";
  "soil_surface_water__infiltration_volume_flux";
  "soil_surface_water__volume_fraction";
  "soil_water__brooks-corey_eta_parameter";
  "soil_water__brooks-corey_lambda_parameter";
  "soil_water__brooks-corey-smith_c_parameter";
  "soil_water__brooks-corey-smith_pressure_head_offset_parameter";
  "soil_water__bubbling_pressure_head";
  "soil_water__initial_domain_integral_of_volume_fraction";
  "soil_water__domain_integral_of_volume_fraction";
  "soil_water__hydraulic_conductivity";
  "soil_water__hygroscopic_volume_fraction";
  "soil_water__initial_hydraulic_conductivity";
  "soil_water__initial_volume_fraction";
  "soil_water__pressure_head";
  "soil_water__residual_volume_fraction";
  "soil_water__saturated_hydraulic_conductivity";
  "soil_water__saturated_volume_fraction";
  "soil_water__volume_fraction";
  "soil_water_flow__z_component_of_darcy_velocity";
  "soil_water_sat-zone_top__domain_time_integral_of_recharge_volume_flux";
  "soil_water_sat-zone_top__recharge_volume_flux";
  "soil_water_wetting-front__depth"].
(** infil_richards_1D.py 251-289 *)
Definition short_infil_richards_1D : list (string * string) := [("atmosphere_water__rainfall_volume_flux", "P_rain");
  ("glacier_ice__melt_volume_flux", "MR");
  ("land_surface__elevation", "elev");
  ("land_surface_water__evaporation_volume_flux", "ET");
  ("snowpack__melt_volume_flux", "SM");
  ("soil_water_sat-zone_top_surface__elevation", "h_table");
  ("model__time_step", "dt");
  ("soil_surface_water__domain_time_integral_of_infiltration_volume_flux", "vol_IN");
  ("soil_surface_water__infiltration_volume_flux", "IN");
  ("soil_surface_water__volume_fraction", "q0");
  ("soil_water__brooks-corey_eta_parameter", "eta");
  ("soil_water__brooks-corey_lambda_parameter", "lam");
  ("soil_water__brooks-corey-smith_c_parameter", "c");
  ("soil_water__brooks-corey-smith_pressure_head_offset_parameter", "pA");
  ("soil_water__bubbling_pressure_head", "pB");
  ("soil_water__initial_domain_integral_of_volume_fraction", "vol_soil_start");
  ("soil_water__domain_integral_of_volume_fraction", "vol_soil");
  ("soil_water__hydraulic_conductivity", "K");
  ("soil_water__hygroscopic_volume_fraction", "qH");
  ("soil_water__initial_hydraulic_conductivity", "Ki");
  ("soil_water__initial_volume_fraction", "qi");
  ("soil_water__pressure_head", "p");
  ("soil_water__residual_volume_fraction", "qr");
  ("soil_water__saturated_hydraulic_conductivity", "Ks");
  ("soil_water__saturated_volume_fraction", "qs");
  ("soil_water__volume_fraction", "q");
  ("soil_water_flow__z_component_of_darcy_velocity", "v");
  ("soil_water_sat-zone_top__domain_time_integral_of_recharge_volume_flux", "vol_Rg");
  ("soil_water_sat-zone_top__recharge_volume_flux", "Rg");
  ("soil_water_wetting-front__depth", "Zw")].
(** infil_richards_1D.py 291-329 *)
Definition units_infil_richards_1D : list (string * string) := [("atmosphere_water__rainfall_volume_flux", "m s-1");
  ("glacier_ice__melt_volume_flux", "m s-1");
  ("land_surface__elevation", "m");
  ("land_surface_water__evaporation_volume_flux", "m s-1");
  ("snowpack__melt_volume_flux", "m s-1");
  ("soil_water_sat-zone_top_surface__elevation", "m");
  ("model__time_step", "s");
  ("soil_surface_water__domain_time_integral_of_infiltration_volume_flux", "m3");
  ("soil_surface_water__infiltration_volume_flux", "m s-1");
  ("soil_surface_water__volume_fraction", "1");
  ("soil_water__brooks-corey_eta_parameter", "1");
  ("soil_water__brooks-corey_lambda_parameter", "1");
  ("soil_water__brooks-corey-smith_c_parameter", "1");
  ("soil_water__brooks-corey-smith_pressure_head_offset_parameter", "m");
  ("soil_water__bubbling_pressure_head", "m");
  ("soil_water__initial_domain_integral_of_volume_fraction", "m3");
  ("soil_water__domain_integral_of_volume_fraction", "m3");
  ("soil_water__hydraulic_conductivity", "m s-1");
  ("soil_water__initial_hydraulic_conductivity", "m s-1");
  ("soil_water__initial_volume_fraction", "1");
  ("soil_water__pressure_head", "m");
  ("soil_water__hygroscopic_volume_fraction", "1");
  ("soil_water__residual_volume_fraction", "1");
  ("soil_water__saturated_hydraulic_conductivity", "m s-1");
  ("soil_water__saturated_volume_fraction", "1");
  ("soil_water__volume_fraction", "1");
  ("soil_water_flow__z_component_of_darcy_velocity", "m s-1");
  ("soil_water_sat-zone_top__domain_time_integral_of_recharge_volume_flux", "m3");
  ("soil_water_sat-zone_top__recharge_volume_flux", "m s-1");
  ("soil_water_wetting-front__depth", "m")].
(** met_base.py 169-171 *)
Definition in_met_base : list string := ["snowpack__depth";
  "glacier_ice__thickness";
  "snowpack__z_mean_of_mass-per-volume_density"].
(** met_base.py 210-261 *)
Definition out_met_base : list string := ["atmosphere_aerosol_dust__reduction_of_transmittance";
  "atmosphere_air-column_water-vapor__liquid-equivalent_depth";
  "atmosphere_bottom_air__brutsaert_emissivity_canopy_factor";
  "atmosphere_bottom_air__brutsaert_emissivity_cloud_factor";
  "atmosphere_bottom_air__bulk_latent_heat_aerodynamic_conductance";
  "atmosphere_bottom_air__bulk_sensible_heat_aerodynamic_conductance";
  "atmosphere_bottom_air__emissivity";
  "atmosphere_bottom_air__mass-per-volume_density";
  "atmosphere_bottom_air__mass-specific_isobaric_heat_capacity";
  "atmosphere_bottom_air__neutral_bulk_aerodynamic_conductance";
  "atmosphere_bottom_air__pressure";
  "atmosphere_bottom_air__temperature";
  "atmosphere_bottom_air_flow__bulk_richardson_number";
  "atmosphere_bottom_air_flow__log_law_roughness_length";
  "atmosphere_bottom_air_flow__reference-height_speed";
  "atmosphere_bottom_air_flow__speed_reference_height";
  "atmosphere_bottom_air_land_net-latent-heat__energy_flux";
  "atmosphere_bottom_air_land_net-sensible-heat__energy_flux";
  "atmosphere_bottom_air_water-vapor__dew_point_temperature";
  "atmosphere_bottom_air_water-vapor__partial_pressure";
  "atmosphere_bottom_air_water-vapor__relative_saturation";
  "atmosphere_bottom_air_water-vapor__saturated_partial_pressure";
  "atmosphere_water__domain_time_integral_of_precipitation_leq-volume_flux";
  "atmosphere_water__domain_time_integral_of_rainfall_volume_flux";
  "atmosphere_water__domain_time_integral_of_snowfall_leq-volume_flux";
  "atmosphere_water__domain_time_max_of_precipitation_leq-volume_flux";
  "atmosphere_water__precipitation_leq-volume_flux";
  "atmosphere_water__rainfall_volume_flux";
  "atmosphere_water__snowfall_leq-volume_flux";
  "earth__standard_gravity_constant";
  "land_surface__albedo";
  "land_surface__aspect_angle";
  "land_surface__emissivity";
  "land_surface__latitude";
  "land_surface__longitude";
  "land_surface__slope_angle";
  "land_surface__temperature";
  "land_surface_air_water-vapor__partial_pressure";
  "land_surface_air_water-vapor__saturated_partial_pressure";
  "land_surface_net-longwave-radiation__energy_flux";
  "land_surface_net-shortwave-radiation__energy_flux";
  "land_surface_net-total-energy__energy_flux";
  "model__time_step";
  "physics__stefan_boltzmann_constant";
  "physics__von_karman_constant";
  "water__mass-specific_latent_fusion_heat";
  "water__mass-specific_latent_vaporization_heat";
  "water-liquid__mass-per-volume_density"].
(** met_base.py 371-428 *)
Definition short_met_base : list (string * string) := [("snowpack__depth", "h_snow");
  ("glacier_ice__thickness", "h_ice");
  ("snowpack__z_mean_of_mass-per-volume_density", "rho_snow");
  ("atmosphere_aerosol_dust__reduction_of_transmittance", "dust_atten");
  ("atmosphere_air-column_water-vapor__liquid-equivalent_depth", "W_p");
  ("atmosphere_bottom_air__brutsaert_emissivity_canopy_factor", "canopy_factor");
  ("atmosphere_bottom_air__brutsaert_emissivity_cloud_factor", "cloud_factor");
  ("atmosphere_bottom_air__bulk_latent_heat_aerodynamic_conductance", "De");
  ("atmosphere_bottom_air__bulk_sensible_heat_aerodynamic_conductance", "Dh");
  ("atmosphere_bottom_air__emissivity", "em_air");
  ("atmosphere_bottom_air__mass-per-volume_density", "rho_air");
  ("atmosphere_bottom_air__mass-specific_isobaric_heat_capacity", "Cp_air");
  ("atmosphere_bottom_air__neutral_bulk_heat_aerodynamic_conductance", "Dn");
  ("atmosphere_bottom_air__pressure", "p0");
  ("atmosphere_bottom_air__temperature", "T_air");
  ("atmosphere_bottom_air_flow__bulk_richardson_number", "Ri");
  ("atmosphere_bottom_air_flow__log_law_roughness_length", "z0_air");
  ("atmosphere_bottom_air_flow__reference-height_speed", "uz");
  ("atmosphere_bottom_air_flow__speed_reference_height", "z");
  ("atmosphere_bottom_air_land_net-latent-heat__energy_flux", "Qe");
  ("atmosphere_bottom_air_land_net-sensible-heat__energy_flux", "Qh");
  ("atmosphere_bottom_air_water-vapor__dew_point_temperature", "T_dew");
  ("atmosphere_bottom_air_water-vapor__partial_pressure", "e_air");
  ("atmosphere_bottom_air_water-vapor__relative_saturation", "RH");
  ("atmosphere_bottom_air_water-vapor__saturated_partial_pressure", "e_sat_air");
  ("atmosphere_water__domain_time_integral_of_precipitation_leq-volume_flux", "vol_P");
  ("atmosphere_water__domain_time_integral_of_rainfall_volume_flux", "vol_PR");
  ("atmosphere_water__domain_time_integral_of_snowfall_leq-volume_flux", "vol_PS");
  ("atmosphere_water__domain_time_max_of_precipitation_leq-volume_flux", "P_max");
  ("atmosphere_water__precipitation_leq-volume_flux", "P");
  ("atmosphere_water__rainfall_volume_flux", "P_rain");
  ("atmosphere_water__snowfall_leq-volume_flux", "P_snow");
  ("earth__standard_gravity_constant", "g");
  ("land_surface__albedo", "albedo");
  ("land_surface__aspect_angle", "alpha");
  ("land_surface__emissivity", "em_surf");
  ("land_surface__latitude", "lat_deg");
  ("land_surface__longitude", "lon_deg");
  ("land_surface__slope_angle", "beta");
  ("land_surface__temperature", "T_surf");
  ("land_surface_air_water-vapor__partial_pressure", "e_surf");
  ("land_surface_air_water-vapor__saturated_partial_pressure", "e_sat_surf");
  ("land_surface_net-longwave-radiation__energy_flux", "Qn_LW");
  ("land_surface_net-shortwave-radiation__energy_flux", "Qn_SW");
  ("land_surface_net-total-energy__energy_flux", "Q_sum");
  ("model__time_step", "dt");
  ("physics__stefan_boltzmann_constant", "sigma");
  ("physics__von_karman_constant", "kappa");
  ("water__mass-specific_latent_fusion_heat", "Lf");
  ("water__mass-specific_latent_vaporization_heat", "Lv");
  ("water-liquid__mass-per-volume_density", "rho_H2O")].
(** met_base.py 452-509 *)
Definition units_met_base : list (string * string) := [("snowpack__depth", "m");
  ("glacier_ice__thickness", "m");
  ("snowpack__z_mean_of_mass-per-volume_density", "kg m-3");
  ("atmosphere_aerosol_dust__reduction_of_transmittance", "1");
  ("atmosphere_air-column_water-vapor__liquid-equivalent_depth", "cm");
  ("atmosphere_bottom_air__brutsaert_emissivity_canopy_factor", "1");
  ("atmosphere_bottom_air__brutsaert_emissivity_cloud_factor", "1");
  ("atmosphere_bottom_air__bulk_latent_heat_aerodynamic_conductance", "m s-1");
  ("atmosphere_bottom_air__bulk_sensible_heat_aerodynamic_conductance", "m s-1");
  ("atmosphere_bottom_air__emissivity", "1");
  ("atmosphere_bottom_air__mass-per-volume_density", "kg m-3");
  ("atmosphere_bottom_air__mass-specific_isobaric_heat_capacity", "J kg-1 K-1");
  ("atmosphere_bottom_air__neutral_bulk_heat_aerodynamic_conductance", "m s-1");
  ("atmosphere_bottom_air__pressure", "mbar");
  ("atmosphere_bottom_air__temperature", "deg_C");
  ("atmosphere_bottom_air_flow__bulk_richardson_number", "1");
  ("atmosphere_bottom_air_flow__log_law_roughness_length", "m");
  ("atmosphere_bottom_air_flow__reference-height_speed", "m s-1");
  ("atmosphere_bottom_air_flow__speed_reference_height", "m");
  ("atmosphere_bottom_air_land_net-latent-heat__energy_flux", "W m-2");
  ("atmosphere_bottom_air_land_net-sensible-heat__energy_flux", "W m-2");
  ("atmosphere_bottom_air_water-vapor__dew_point_temperature", "deg_C");
  ("atmosphere_bottom_air_water-vapor__partial_pressure", "mbar");
  ("atmosphere_bottom_air_water-vapor__relative_saturation", "1");
  ("atmosphere_bottom_air_water-vapor__saturated_partial_pressure", "mbar");
  ("atmosphere_water__domain_time_integral_of_precipitation_leq-volume_flux", "m3");
  ("atmosphere_water__domain_time_integral_of_rainfall_volume_flux", "m3");
  ("atmosphere_water__domain_time_integral_of_snowfall_leq-volume_flux", "m3");
  ("atmosphere_water__domain_time_max_of_precipitation_leq-volume_flux", "m s-1");
  ("atmosphere_water__precipitation_leq-volume_flux", "m s-1");
  ("atmosphere_water__rainfall_volume_flux", "m s-1");
  ("atmosphere_water__snowfall_leq-volume_flux", "m s-1");
  ("earth__standard_gravity_constant", "m s-2");
  ("land_surface__albedo", "1");
  ("land_surface__aspect_angle", "radians");
  ("land_surface__emissivity", "1");
  ("land_surface__latitude", "degrees");
  ("land_surface__longitude", "degrees");
  ("land_surface__slope_angle", "radians");
  ("land_surface__temperature", "deg_C");
  ("land_surface_air_water-vapor__partial_pressure", "mbar");
  ("land_surface_air_water-vapor__saturated_partial_pressure", "mbar");
  ("land_surface_net-longwave-radiation__energy_flux", "W m-2");
  ("land_surface_net-shortwave-radiation__energy_flux", "W m-2");
  ("land_surface_net-total-energy__energy_flux", "W m-2");
  ("model__time_step", "s");
  ("physics__stefan_boltzmann_constant", "W m-2 K-4");
  ("physics__von_karman_constant", "1");
  ("water__mass-specific_latent_fusion_heat", "J kg-1");
  ("water__mass-specific_latent_vaporization_heat", "J kg-1");
  ("water-liquid__mass-per-volume_density", "kg m-3")].
(** satzone_darcy_layers.py 64-67 *)
Definition in_satzone_darcy_layers : list string := ["channel_water_x-section__mean_depth";
  "land_surface_water__evaporation_volume_flux";
  "soil_water_sat-zone_top__recharge_volume_flux"].
(** satzone_darcy_layers.py 69-95 *)
Definition out_satzone_darcy_layers : list string := ["land_surface__elevation";
  "land_surface_water__baseflow_volume_flux";
  "land_surface_water__domain_time_integral_of_baseflow_volume_flux";
  "model__time_step";
  "model_soil_layer-0__porosity";
  "model_soil_layer-0__saturated_thickness";
  "model_soil_layer-0__thickness";
  "model_soil_layer-1__porosity";
  "model_soil_layer-1__saturated_thickness";
  "model_soil_layer-1__thickness";
  "model_soil_layer-2__porosity";
  "model_soil_layer-2__saturated_thickness";
  "model_soil_layer-2__thickness";
  "soil_water_sat-zone_top_surface__elevation";
  "soil_top-layer__porosity";
  "soil_top-layer__saturated_thickness";
  "soil_top-layer__thickness"].
(** satzone_darcy_layers.py 119-152 *)
Definition short_satzone_darcy_layers : list (string * string) := [("channel_water_x-section__mean_depth", "d");
  ("soil_water_sat-zone_top__recharge_volume_flux", "Rg");
  ("land_surface__elevation", "elev");
  ("land_surface_water__baseflow_volume_flux", "GW");
  ("land_surface_water__domain_time_integral_of_baseflow_volume_flux", "vol_GW");
  ("land_surface_water__evaporation_volume_flux", "ET");
  ("model__time_step", "dt");
  ("soil_water_sat-zone_top_surface__elevation", "h_table");
  ("soil_top-layer__porosity", "qs_layer_0");
  ("soil_top-layer__saturated_thickness", "y_layer_0");
  ("soil_top-layer__thickness", "th_layer_0")].
(** satzone_darcy_layers.py 154-184 *)
Definition units_satzone_darcy_layers : list (string * string) := [("channel_water_x-section__mean_depth", "m");
  ("soil_water_sat-zone_top__recharge_volume_flux", "m s-1");
  ("land_surface__elevation", "m");
  ("land_surface_water__baseflow_volume_flux", "m s-1");
  ("land_surface_water__domain_time_integral_of_baseflow_volume_flux", "m3");
  ("land_surface_water__evaporation_volume_flux", "m s-1");
  ("model__time_step", "s");
  ("model_soil_layer-0__porosity", "1");
  ("model_soil_layer-0__saturated_thickness", "m");
  ("model_soil_layer-0__thickness", "m");
  ("model_soil_layer-1__porosity", "1");
  ("model_soil_layer-1__saturated_thickness", "m");
  ("model_soil_layer-1__thickness", "m");
  ("model_soil_layer-2__porosity", "1");
  ("model_soil_layer-2__saturated_thickness", "m");
  ("model_soil_layer-2__thickness", "m");
  ("soil_water_sat-zone_top_surface__elevation", "m");
  ("soil_top-layer__porosity", "1");
  ("soil_top-layer__saturated_thickness", "m");
  ("soil_top-layer__thickness", "m")].
(** satzone_attenuate.py 61-65 *)
Definition in_satzone_attenuate : list string := ["atmosphere_water__rainfall_volume_flux";
  "channel_water_x-section__mean_depth";
  "land_surface_water__evaporation_volume_flux";
  "soil_water_sat-zone_top__recharge_volume_flux"].
(** satzone_attenuate.py 67-93 *)
Definition out_satzone_attenuate : list string := ["land_surface__elevation";
  "land_surface_water__baseflow_volume_flux";
  "land_surface_water__domain_time_integral_of_baseflow_volume_flux";
  "model__time_step";
  "soil_water_sat-zone_top_surface__elevation";
  "soil_top-layer__porosity";
  "soil_top-layer__saturated_thickness";
  "soil_top-layer__thickness"].
(** satzone_attenuate.py 117-151 *)
Definition short_satzone_attenuate : list (string * string) := [("atmosphere_water__rainfall_volume_flux", "P_rain");
  ("channel_water_x-section__mean_depth", "d");
  ("soil_water_sat-zone_top__recharge_volume_flux", "Rg");
  ("land_surface__elevation", "elev");
  ("land_surface_water__baseflow_volume_flux", "GW");
  ("land_surface_water__domain_time_integral_of_baseflow_volume_flux", "vol_GW");
  ("land_surface_water__evaporation_volume_flux", "ET");
  ("model__time_step", "dt");
  ("soil_water_sat-zone_top_surface__elevation", "h_table");
  ("soil_top-layer__porosity", "qs_layer_0");
  ("soil_top-layer__saturated_thickness", "y_layer_0");
  ("soil_top-layer__thickness", "th_layer_0")].
(** satzone_attenuate.py 153-184 *)
Definition units_satzone_attenuate : list (string * string) := [("atmosphere_water__rainfall_volume_flux", "m s-1");
  ("channel_water_x-section__mean_depth", "m");
  ("soil_water_sat-zone_top__recharge_volume_flux", "m s-1");
  ("land_surface__elevation", "m");
  ("land_surface_water__baseflow_volume_flux", "m s-1");
  ("land_surface_water__domain_time_integral_of_baseflow_volume_flux", "m3");
  ("land_surface_water__evaporation_volume_flux", "m s-1");
  ("model__time_step", "s");
  ("soil_water_sat-zone_top_surface__elevation", "m");
  ("soil_top-layer__porosity", "1");
  ("soil_top-layer__saturated_thickness", "m");
  ("soil_top-layer__thickness", "m")].
(** snow_degree_day.py 82-86 *)
Definition in_snow_degree_day : list string := ["atmosphere_bottom_air__temperature";
  "atmosphere_water__snowfall_leq-volume_flux";
  "land_surface__temperature";
  "water-liquid__mass-per-volume_density"].
(** snow_degree_day.py 108-120 *)
Definition out_snow_degree_day : list string := ["model__time_step";
  "snowpack__degree-day_coefficient";
  "snowpack__degree-day_threshold_temperature";
  "snowpack__domain_time_integral_of_melt_volume_flux";
  "snowpack__initial_domain_integral_of_liquid-equivalent_depth";
  "snowpack__domain_integral_of_liquid-equivalent_depth";
  "snowpack__depth";
  "snowpack__initial_depth";
  "snowpack__initial_liquid-equivalent_depth";
  "snowpack__liquid-equivalent_depth";
  "snowpack__melt_volume_flux";
  "snowpack__z_mean_of_mass-per-volume_density"].
(** snow_degree_day.py 126-143 *)
Definition short_snow_degree_day : list (string * string) := [("atmosphere_bottom_air__temperature", "T_air");
  ("atmosphere_water__snowfall_leq-volume_flux", "P_snow");
  ("land_surface__temperature", "T_surf");
  ("water-liquid__mass-per-volume_density", "rho_H2O");
  ("model__time_step", "dt");
  ("snowpack__domain_time_integral_of_melt_volume_flux", "vol_SM");
  ("snowpack__initial_domain_integral_of_liquid-equivalent_depth", "vol_swe_start");
  ("snowpack__domain_integral_of_liquid-equivalent_depth", "vol_swe");
  ("snowpack__degree-day_coefficient", "c0");
  ("snowpack__degree-day_threshold_temperature", "T0");
  ("snowpack__depth", "h_snow");
  ("snowpack__initial_depth", "h0_snow");
  ("snowpack__initial_liquid-equivalent_depth", "h0_swe");
  ("snowpack__liquid-equivalent_depth", "h_swe");
  ("snowpack__melt_volume_flux", "SM");
  ("snowpack__z_mean_of_mass-per-volume_density", "rho_snow")].
(** snow_degree_day.py 163-180 *)
Definition units_snow_degree_day : list (string * string) := [("atmosphere_bottom_air__temperature", "deg_C");
  ("atmosphere_water__snowfall_leq-volume_flux", "m s-1");
  ("land_surface__temperature", "deg_C");
  ("water-liquid__mass-per-volume_density", "kg m-3");
  ("model__time_step", "s");
  ("snowpack__domain_time_integral_of_melt_volume_flux", "m3");
  ("snowpack__initial_domain_integral_of_liquid-equivalent_depth", "m3");
  ("snowpack__domain_integral_of_liquid-equivalent_depth", "m3");
  ("snowpack__degree-day_coefficient", "mm day-1 K-1 ");
  ("snowpack__degree-day_threshold_temperature", "deg_C");
  ("snowpack__depth", "m");
  ("snowpack__initial_depth", "m");
  ("snowpack__initial_liquid-equivalent_depth", "m");
  ("snowpack__liquid-equivalent_depth", "m");
  ("snowpack__melt_volume_flux", "m s-1");
  ("snowpack__z_mean_of_mass-per-volume_density", "kg m-3")].
(** snow_energy_balance.py 93-100 *)
Definition in_snow_energy_balance : list string := ["atmosphere_bottom_air__mass-per-volume_density";
  "atmosphere_bottom_air__mass-specific_isobaric_heat_capacity";
  "atmosphere_bottom_air__temperature";
  "atmosphere_water__snowfall_leq-volume_flux";
  "land_surface__temperature";
  "land_surface_net-total-energy__energy_flux";
  "water-liquid__mass-per-volume_density"].
(** snow_energy_balance.py 125-137 *)
Definition out_snow_energy_balance : list string := ["model__time_step";
  "snowpack__domain_time_integral_of_melt_volume_flux";
  "snowpack__initial_domain_integral_of_liquid-equivalent_depth";
  "snowpack__domain_integral_of_liquid-equivalent_depth";
  "snowpack__energy-per-area_cold_content";
  "snowpack__depth";
  "snowpack__initial_depth";
  "snowpack__initial_liquid-equivalent_depth";
  "snowpack__liquid-equivalent_depth";
  "snowpack__melt_volume_flux";
  "snowpack__z_mean_of_mass-per-volume_density";
  "snowpack__z_mean_of_mass-specific_isobaric_heat_capacity"].
(** snow_energy_balance.py 139-170 *)
Definition short_snow_energy_balance : list (string * string) := [("atmosphere_bottom_air__mass-per-volume_density", "rho_air");
  ("atmosphere_bottom_air__mass-specific_isobaric_heat_capacity", "Cp_air");
  ("atmosphere_bottom_air__temperature", "T_air");
  ("atmosphere_water__snowfall_leq-volume_flux", "P_snow");
  ("land_surface_net-total-energy__energy_flux", "Q_sum");
  ("land_surface__temperature", "T_surf");
  ("water-liquid__mass-per-volume_density", "rho_H2O");
  ("model__time_step", "dt");
  ("snowpack__domain_time_integral_of_melt_volume_flux", "vol_SM");
  ("snowpack__initial_domain_integral_of_liquid-equivalent_depth", "vol_swe_start");
  ("snowpack__domain_integral_of_liquid-equivalent_depth", "vol_swe");
  ("snowpack__depth", "h_snow");
  ("snowpack__energy-per-area_cold_content", "Ecc");
  ("snowpack__initial_depth", "h0_snow");
  ("snowpack__initial_liquid-equivalent_depth", "h0_swe");
  ("snowpack__liquid-equivalent_depth", "h_swe");
  ("snowpack__melt_volume_flux", "SM");
  ("snowpack__z_mean_of_mass-per-volume_density", "rho_snow");
  ("snowpack__z_mean_of_mass-specific_isobaric_heat_capacity", "Cp_snow")].
(** snow_energy_balance.py 176-207 *)
Definition units_snow_energy_balance : list (string * string) := [("atmosphere_bottom_air__mass-per-volume_density", "kg m-3");
  ("atmosphere_bottom_air__mass-specific_isobaric_heat_capacity", "J kg-1 K-1");
  ("atmosphere_bottom_air__temperature", "deg_C");
  ("atmosphere_water__snowfall_leq-volume_flux", "m s-1");
  ("land_surface_net-total-energy__energy_flux", "W m-2");
  ("land_surface__temperature", "deg_C");
  ("water-liquid__mass-per-volume_density", "kg m-3");
  ("model__time_step", "s");
  ("snowpack__domain_time_integral_of_melt_volume_flux", "m3");
  ("snowpack__initial_domain_integral_of_liquid-equivalent_depth", "m3");
  ("snowpack__domain_integral_of_liquid-equivalent_depth", "m3");
  ("snowpack__depth", "m");
  ("snowpack__energy-per-area_cold_content", "J m-2");
  ("snowpack__initial_depth", "m");
  ("snowpack__initial_liquid-equivalent_depth", "m");
  ("snowpack__liquid-equivalent_depth", "m");
  ("snowpack__melt_volume_flux", "m s-1");
  ("snowpack__z_mean_of_mass-per-volume_density", "kg m-3");
  ("snowpack__z_mean_of_mass-specific_isobaric_heat_capacity", "J kg-1 K-1")].
(** topoflow_driver.py 116-168 *)
Definition in_topoflow_driver : list string := ["atmosphere_water__domain_time_integral_of_precipitation_leq-volume_flux";
  "atmosphere_water__domain_time_integral_of_rainfall_volume_flux";
  "atmosphere_water__domain_time_integral_of_snowfall_leq-volume_flux";
  "atmosphere_water__domain_time_max_of_precipitation_leq-volume_flux";
  "basin_outlet_water_flow__half_of_fanning_friction_factor";
  "basin_outlet_water_x-section__mean_depth";
  "basin_outlet_water_x-section__peak_time_of_depth";
  "basin_outlet_water_x-section__peak_time_of_volume_flow_rate";
  "basin_outlet_water_x-section__peak_time_of_volume_flux";
  "basin_outlet_water_x-section__time_integral_of_volume_flow_rate";
  "basin_outlet_water_x-section__time_max_of_mean_depth";
  "basin_outlet_water_x-section__time_max_of_volume_flow_rate";
  "basin_outlet_water_x-section__time_max_of_volume_flux";
  "basin_outlet_water_x-section__volume_flow_rate";
  "basin_outlet_water_x-section__volume_flux";
  "channel_bottom_water_flow__domain_max_of_log_law_roughness_length";
  "channel_bottom_water_flow__domain_min_of_log_law_roughness_length";
  "channel_water_flow__domain_max_of_manning_n_parameter";
  "channel_water_flow__domain_min_of_manning_n_parameter";
  "channel_water_x-section__domain_max_of_mean_depth";
  "channel_water_x-section__domain_max_of_volume_flow_rate";
  "channel_water_x-section__domain_max_of_volume_flux";
  "channel_water_x-section__domain_min_of_mean_depth";
  "channel_water_x-section__domain_min_of_volume_flow_rate";
  "channel_water_x-section__domain_min_of_volume_flux";
  "glacier_ice__domain_time_integral_of_melt_volume_flux";
  "land_surface_water__baseflow_volume_flux";
  "land_surface_water__domain_time_integral_of_baseflow_volume_flux";
  "land_surface_water__domain_time_integral_of_evaporation_volume_flux";
  "land_surface_water__domain_time_integral_of_runoff_volume_flux";
  "land_surface_water__runoff_volume_flux";
  "snowpack__initial_domain_integral_of_liquid-equivalent_depth";
  "snowpack__domain_integral_of_liquid-equivalent_depth";
  "snowpack__domain_time_integral_of_melt_volume_flux";
  "soil_surface_water__domain_time_integral_of_infiltration_volume_flux";
  "soil_water__initial_domain_integral_of_volume_fraction";
  "soil_water__domain_integral_of_volume_fraction";
  "soil_water_sat-zone_top__domain_time_integral_of_recharge_volume_flux";
  "channel_water_x-section__boundary_time_integral_of_volume_flow_rate";
  "river-network_channel_water__initial_volume";
  "river-network_channel_water__volume";
  "land_surface_water__area_integral_of_depth"].
(** topoflow_driver.py 184-187 *)
Definition out_topoflow_driver : list string := ["model__time_step";
  "ngen::mass_in";
  "ngen::mass_out";
  "ngen::mass_stored";
  "ngen::mass_leaked"].
(** topoflow_driver.py 189-249 *)
Definition short_topoflow_driver : list (string * string) := [("atmosphere_water__domain_time_integral_of_precipitation_leq-volume_flux", "vol_P");
  ("atmosphere_water__domain_time_integral_of_rainfall_volume_flux", "vol_PR");
  ("atmosphere_water__domain_time_integral_of_snowfall_leq-volume_flux", "vol_PS");
  ("atmosphere_water__domain_time_max_of_precipitation_leq-volume_flux", "P_max");
  ("basin_outlet_water_flow__half_of_fanning_friction_factor", "f_outlet");
  ("basin_outlet_water_x-section__mean_depth", "d_outlet");
  ("basin_outlet_water_x-section__peak_time_of_depth", "Td_peak");
  ("basin_outlet_water_x-section__peak_time_of_volume_flow_rate", "T_peak");
  ("basin_outlet_water_x-section__peak_time_of_volume_flux", "Tu_peak");
  ("basin_outlet_water_x-section__time_integral_of_volume_flow_rate", "vol_Q");
  ("basin_outlet_water_x-section__time_max_of_mean_depth", "d_peak");
  ("basin_outlet_water_x-section__time_max_of_volume_flow_rate", "Q_peak");
  ("basin_outlet_water_x-section__time_max_of_volume_flux", "u_peak");
  ("basin_outlet_water_x-section__volume_flow_rate", "Q_outlet");
  ("basin_outlet_water_x-section__volume_flux", "u_outlet");
  ("channel_bottom_water_flow__domain_max_of_log_law_roughness_length", "z0val_max");
  ("channel_bottom_water_flow__domain_min_of_log_law_roughness_length", "z0val_min");
  ("channel_water_flow__domain_max_of_manning_n_parameter", "nval_max");
  ("channel_water_flow__domain_min_of_manning_n_parameter", "nval_min");
  ("channel_water_x-section__domain_max_of_mean_depth", "d_max");
  ("channel_water_x-section__domain_max_of_volume_flow_rate", "Q_max");
  ("channel_water_x-section__domain_max_of_volume_flux", "u_max");
  ("channel_water_x-section__domain_min_of_mean_depth", "d_min");
  ("channel_water_x-section__domain_min_of_volume_flow_rate", "Q_min");
  ("channel_water_x-section__domain_min_of_volume_flux", "u_min");
  ("glacier_ice__domain_time_integral_of_melt_volume_flux", "vol_MR");
  ("land_surface_water__baseflow_volume_flux", "GW");
  ("land_surface_water__domain_time_integral_of_baseflow_volume_flux", "vol_GW");
  ("land_surface_water__domain_time_integral_of_evaporation_volume_flux", "vol_ET");
  ("land_surface_water__domain_time_integral_of_runoff_volume_flux", "vol_R");
  ("land_surface_water__runoff_volume_flux", "R");
  ("snowpack__initial_domain_integral_of_liquid-equivalent_depth", "vol_swe_start");
  ("snowpack__domain_integral_of_liquid-equivalent_depth", "vol_swe");
  ("snowpack__domain_time_integral_of_melt_volume_flux", "vol_SM");
  ("soil_surface_water__domain_time_integral_of_infiltration_volume_flux", "vol_IN");
  ("soil_water__initial_domain_integral_of_volume_fraction", "vol_soil_start");
  ("soil_water__domain_integral_of_volume_fraction", "vol_soil");
  ("soil_water_sat-zone_top__domain_time_integral_of_recharge_volume_flux", "vol_Rg");
  ("model__time_step", "dt");
  ("channel_water_x-section__boundary_time_integral_of_volume_flow_rate", "vol_edge");
  ("river-network_channel_water__initial_volume", "vol_chan_sum0");
  ("river-network_channel_water__volume", "vol_chan_sum");
  ("land_surface_water__initial_area_integral_of_depth", "vol_flood_sum0");
  ("land_surface_water__area_integral_of_depth", "vol_flood_sum")].
(** topoflow_driver.py 258-319 *)
Definition units_topoflow_driver : list (string * string) := [("atmosphere_water__domain_time_integral_of_precipitation_leq-volume_flux", "m3");
  ("atmosphere_water__domain_time_integral_of_rainfall_volume_flux", "m3");
  ("atmosphere_water__domain_time_integral_of_snowfall_leq-volume_flux", "m3");
  ("atmosphere_water__domain_time_max_of_precipitation_leq-volume_flux", "m s-1");
  ("basin_outlet_water_flow__half_of_fanning_friction_factor", "1");
  ("basin_outlet_water_x-section__mean_depth", "m");
  ("basin_outlet_water_x-section__peak_time_of_depth", "min");
  ("basin_outlet_water_x-section__peak_time_of_volume_flow_rate", "min");
  ("basin_outlet_water_x-section__peak_time_of_volume_flux", "min");
  ("basin_outlet_water_x-section__time_integral_of_volume_flow_rate", "m3");
  ("basin_outlet_water_x-section__time_max_of_mean_depth", "m");
  ("basin_outlet_water_x-section__time_max_of_volume_flow_rate", "m3 s-1");
  ("basin_outlet_water_x-section__time_max_of_volume_flux", "m s-1");
  ("basin_outlet_water_x-section__volume_flow_rate", "m3 s-1");
  ("basin_outlet_water_x-section__volume_flux", "m s-1");
  ("channel_bottom_water_flow__domain_max_of_log_law_roughness_length", "m");
  ("channel_bottom_water_flow__domain_min_of_log_law_roughness_length", "m");
  ("channel_water_flow__domain_max_of_manning_n_parameter", "m-1/3 s");
  ("channel_water_flow__domain_min_of_manning_n_parameter", "m-1/3 s");
  ("channel_water_x-section__domain_max_of_mean_depth", "m");
  ("channel_water_x-section__domain_max_of_volume_flow_rate", "m3 s-1");
  ("channel_water_x-section__domain_max_of_volume_flux", "m s-1");
  ("channel_water_x-section__domain_min_of_mean_depth", "m");
  ("channel_water_x-section__domain_min_of_volume_flow_rate", "m3 s-1");
  ("channel_water_x-section__domain_min_of_volume_flux", "m s-1");
  ("glacier_ice__domain_time_integral_of_melt_volume_flux", "m3");
  ("land_surface_water__baseflow_volume_flux", "m s-1");
  ("land_surface_water__domain_time_integral_of_baseflow_volume_flux", "m3");
  ("land_surface_water__domain_time_integral_of_evaporation_volume_flux", "m3");
  ("land_surface_water__domain_time_integral_of_runoff_volume_flux", "m3");
  ("land_surface_water__runoff_volume_flux", "m s-1");
  ("network_channel_water__volume", "m3");
  ("snowpack__initial_domain_integral_of_liquid-equivalent_depth", "m3");
  ("snowpack__domain_integral_of_liquid-equivalent_depth", "m3");
  ("snowpack__domain_time_integral_of_melt_volume_flux", "m3");
  ("soil_surface_water__domain_time_integral_of_infiltration_volume_flux", "m3");
  ("soil_water__initial_domain_integral_of_volume_fraction", "m3");
  ("soil_water__domain_integral_of_volume_fraction", "m3");
  ("soil_water_sat-zone_top__domain_time_integral_of_recharge_volume_flux", "m3");
  ("model__time_step", "s");
  ("channel_water_x-section__boundary_time_integral_of_volume_flow_rate", "m3");
  ("river-network_channel_water__initial_volume", "m3");
  ("river-network_channel_water__volume", "m3");
  ("land_surface_water__initial_area_integral_of_depth", "m3");
  ("land_surface_water__area_integral_of_depth", "m3");
  ("ngen::mass_in", "m3");
  ("ngen::mass_out", "m3");
  ("ngen::mass_stored", "m3");
  ("ngen::mass_leaked", "m3")].
(** erode_d8_global.py 91-91 *)
Definition in_erode_d8_global : list string := [].
(** erode_d8_global.py 99-123 *)
Definition out_erode_d8_global : list string := ["atmosphere_water__geomorphic_precipitation_leq-volume_flux";
  "bedrock__uplift_rate";
  "channel_water_x-section__volume_flow_rate";
  "channel_water_x-section__volume_flow_rate_law_area_exponent";
  "channel_water_total-sediment__volume_flow_rate";
  "channel_water_total-sediment__volume_flow_rate_law_area_exponent";
  "channel_water_total-sediment__volume_flow_rate_law_coefficient";
  "channel_water_total-sediment__volume_flow_rate_law_slope_exponent";
  "land_surface__elevation";
  "land_surface__increment_of_elevation";
  "land_surface__initial_elevation";
  "land_surface__domain_max_of_increment_of_elevation";
  "land_surface__slope";
  "land_surface__time_derivative_of_elevation";
  "land_surface_contour-segment__total_contributing_area";
  "model__time_step";
  "model_domain_boundary__lowering_rate";
  "model_grid_cell__area";
  "model_grid_cell__d8_flow_width";
  "model_grid_cell__d8_flow_length";
  "model_grid_cell__diameter";
  "model_grid_cell__x_length";
  "model_grid_cell__y_length"].
(** erode_d8_global.py 137-161 *)
Definition short_erode_d8_global : list (string * string) := [("atmosphere_water__geomorphic_precipitation_leq-volume_flux", "R");
  ("bedrock__uplift_rate", "U");
  ("channel_water_x-section__volume_flow_rate", "Q");
  ("channel_water_x-section__volume_flow_rate_law_area_exponent", "p");
  ("channel_water_total-sediment__volume_flow_rate", "Qs");
  ("channel_water_total-sediment__volume_flow_rate_law_area_exponent", "m");
  ("channel_water_total-sediment__volume_flow_rate_law_coefficient", "K");
  ("channel_water_total-sediment__volume_flow_rate_law_slope_exponent", "n");
  ("land_surface__elevation", "z");
  ("land_surface__increment_of_elevation", "dz");
  ("land_surface__initial_elevation", "z0");
  ("land_surface__domain_max_of_increment_of_elevation", "dz_max");
  ("land_surface__slope", "S");
  ("land_surface__time_derivative_of_elevation", "dz_dt");
  ("land_surface_contour-segment__total_contributing_area", "A");
  ("model__time_step", "dt");
  ("model_domain_boundary__lowering_rate", "BLR");
  ("model_grid_cell__area", "da");
  ("model_grid_cell__d8_flow_width", "dw");
  ("model_grid_cell__d8_flow_length", "ds");
  ("model_grid_cell__diameter", "dd");
  ("model_grid_cell__x_length", "dx");
  ("model_grid_cell__y_length", "dy")].
(** erode_d8_global.py 173-197 *)
Definition units_erode_d8_global : list (string * string) := [("atmosphere_water__geomorphic_precipitation_leq-volume_flux", "m yr-1");
  ("bedrock__uplift_rate", "mm yr-1");
  ("channel_water_x-section__volume_flow_rate", "m3 yr-1");
  ("channel_water_x-section__volume_flow_rate_law_area_exponent", "1");
  ("channel_water_total-sediment__volume_flow_rate", "m3 yr-1");
  ("channel_water_total-sediment__volume_flow_rate_law_area_exponent", "1");
  ("channel_water_total-sediment__volume_flow_rate_law_coefficient", "m3(1-m) yr(m-1)");
  ("channel_water_total-sediment__volume_flow_rate_law_slope_exponent", "1");
  ("land_surface__domain_max_of_increment_of_elevation", "m");
  ("land_surface__elevation", "m");
  ("land_surface__increment_of_elevation", "m");
  ("land_surface__initial_elevation", "m");
  ("land_surface__slope", "1");
  ("land_surface__time_derivative_of_elevation", "m yr-1");
  ("land_surface_contour-segment__total_contributing_area", "m2");
  ("model__time_step", "yr");
  ("model_domain_boundary__lowering_rate", "mm yr-1");
  ("model_grid_cell__area", "m2");
  ("model_grid_cell__d8_flow_width", "m");
  ("model_grid_cell__d8_flow_length", "m");
  ("model_grid_cell__diameter", "m");
  ("model_grid_cell__x_length", "m");
  ("model_grid_cell__y_length", "m")].
(** d8_base.py 100-100 *)
Definition in_d8_base : list string := ["land_surface__elevation"].
(** d8_base.py 115-115 *)
Definition out_d8_base : list string := [].
(** d8_base.py 117-118 *)
Definition short_d8_base : list (string * string) := [("land_surface__elevation", "DEM")].
(** d8_base.py 120-121 *)
Definition units_d8_base : list (string * string) := [("land_surface__elevation", "m")].

(** component_repository.xml: the components and the tables of their classes *)
Definition repository : list (string * tables) := [
  ("tf_channels_kin_wave", Tables in_channels_base out_channels_base short_channels_base units_channels_base);
  ("tf_channels_diff_wave", Tables in_channels_base out_channels_base short_channels_base units_channels_base);
  ("tf_channels_dynam_wave", Tables in_channels_base out_channels_base short_channels_base units_channels_base);
  ("tf_data_his", Tables in_HIS_base out_HIS_base short_HIS_base units_HIS_base);
  ("tf_diversions_fraction_method", Tables in_diversions_fraction_method out_diversions_fraction_method short_diversions_fraction_method units_diversions_fraction_method);
  ("tf_evap_energy_balance", Tables in_evap_energy_balance out_evap_energy_balance short_evap_energy_balance units_evap_energy_balance);
  ("tf_evap_priestley_taylor", Tables in_evap_priestley_taylor out_evap_priestley_taylor short_evap_priestley_taylor units_evap_priestley_taylor);
  ("tf_evap_read_file", Tables in_evap_read_file out_evap_read_file short_evap_read_file units_evap_read_file);
  ("tf_ice_gc2d", Tables in_ice_base out_ice_base short_ice_base units_ice_base);
  ("tf_glacier_energy_balance", Tables in_glacier_energy_balance out_glacier_energy_balance short_glacier_energy_balance units_glacier_energy_balance);
  ("tf_infil_green_ampt", Tables in_infil_green_ampt out_infil_green_ampt short_infil_green_ampt units_infil_green_ampt);
  ("tf_infil_smith_parlange", Tables in_infil_smith_parlange out_infil_smith_parlange short_infil_smith_parlange units_infil_smith_parlange);
  ("tf_infil_beven", Tables in_infil_beven out_infil_beven short_infil_beven units_infil_beven);
  ("tf_infil_richards_1d", Tables in_infil_richards_1D out_infil_richards_1D short_infil_richards_1D units_infil_richards_1D);
  ("tf_meteorology", Tables in_met_base out_met_base short_met_base units_met_base);
  ("tf_satzone_darcy_layers", Tables in_satzone_darcy_layers out_satzone_darcy_layers short_satzone_darcy_layers units_satzone_darcy_layers);
  ("tf_satzone_attenuate", Tables in_satzone_attenuate out_satzone_attenuate short_satzone_attenuate units_satzone_attenuate);
  ("tf_snow_degree_day", Tables in_snow_degree_day out_snow_degree_day short_snow_degree_day units_snow_degree_day);
  ("tf_snow_energy_balance", Tables in_snow_energy_balance out_snow_energy_balance short_snow_energy_balance units_snow_energy_balance);
  ("topoflow_driver", Tables in_topoflow_driver out_topoflow_driver short_topoflow_driver units_topoflow_driver);
  ("erode_d8_global", Tables in_erode_d8_global out_erode_d8_global short_erode_d8_global units_erode_d8_global);
  ("d8_global", Tables in_d8_base out_d8_base short_d8_base units_d8_base)].

Definition tables_of (name : string) : tables :=
  match List.find (fun p => String.eqb (fst p) name) repository with Some p => snd p | None => Tables [] [] [] [] end.
(** what EMELI sees of a component *)
Definition seen (name : string) : names := {| n_comp := name; n_out := outs (tables_of name); n_in := ins (tables_of name) |}.

(** get_var_name and get_var_units of every component: a lookup, KeyError if there is no entry *)
Definition get_var_name (name v : string) : res string := item_of (short_names (tables_of name)) v.
Definition get_var_units (name v : string) : res string := item_of (units (tables_of name)) v.

(** emeli.py 733, 755-771 connect_comps up to the values: the short names and units on both sides and
    whether they are the same (a warning is printed otherwise).  get_value_ptr (BMI_base.py 596-599) and
    set_value look up the short name first. *)
Definition connect (provider user v : string) : res (string * string * bool) :=
  let! ps := get_var_name provider v in
  let! pu := get_var_units provider v in
  let! uu := get_var_units user v in
  let! us := get_var_name user v in
  Ok (ps, us, String.eqb uu pu).
