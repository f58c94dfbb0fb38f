-Q theories Verif
theories/Common.v
theories/Coords_model.v
theories/Coords_spec.v
theories/Coords_proofs.v
theories/Coords_props.v
theories/RSum.v
theories/Trig_model.v
theories/Mesh_model.v
theories/Mesh_spec.v
theories/Mesh_proofs.v
theories/Mesh_props.v
theories/Queue_model.v
theories/Queue_spec.v
theories/Queue_proofs.v
theories/Queue_props.v
theories/Ejecta_model.v
theories/Ejecta_proofs.v
theories/Ejecta_props.v
theories/Profile_model.v
theories/Profile_spec.v
theories/Profile_proofs.v
theories/Profile_props.v
theories/Geo_spec.v
theories/Geo_proofs.v
theories/Geo_props.v
theories/Tags_model.v
theories/Tags_spec.v
theories/Tags_proofs.v
theories/Tags_props.v
theories/Columns_model.v
theories/Columns_spec.v
theories/Columns_proofs.v
theories/Columns_props.v
theories/Crater_model.v
theories/Crater_spec.v
theories/Crater_proofs.v
theories/Crater_props.v
theories/Run_model.v
theories/Run_spec.v
theories/Run_proofs.v
theories/Run_props.v
theories/Sorting.v
theories/Times_model.v
theories/Times_spec.v
theories/Times_proofs.v
theories/Times_props.v
theories/Prod_model.v
theories/Prod_spec.v
theories/Prod_poly.v
theories/Prod_proofs.v
theories/Prod_props.v
theories/Scaling_model.v
theories/Scaling_spec.v
theories/Scaling_proofs.v
theories/Scaling_props.v
theories/Conf_model.v
theories/Conf_spec.v
theories/Conf_base.v
theories/Conf_proofs.v
theories/Conf_scal.v
theories/Conf_props.v
theories/Base_model.v
theories/Base_spec.v
theories/Base_proofs.v
theories/Base_props.v
theories/Files_model.v
theories/Files_spec.v
theories/Files_proofs.v
theories/Files_props.v
theories/Random_model.v
theories/Random_spec.v
theories/Random_proofs.v
theories/Random_sizes.v
theories/Random_props.v
theories/Fit_model.v
theories/Fit_spec.v
theories/Fit_proofs.v
theories/Fit_circle.v
theories/Fit_conic.v
theories/Fit_ellipse.v
theories/Fit_rim.v
theories/Fit_props.v
theories/Region_model.v
theories/Region_spec.v
theories/Region_proofs.v
theories/Region_more.v
theories/Region_cases.v
theories/Region_props.v
theories/Measure_model.v
theories/Measure_spec.v
theories/Measure_proofs.v
theories/Measure_score.v
theories/Measure_loop.v
theories/Measure_props.v
theories/Quasi_model.v
theories/Quasi_spec.v
theories/Quasi_proofs.v
theories/Quasi_order.v
theories/Quasi_dates.v
theories/Quasi_two.v
theories/Quasi_passes.v
theories/Quasi_cases.v
theories/Quasi_interp.v
theories/Quasi_between.v
theories/Quasi_props.v
theories/Limits_model.v
theories/Limits_spec.v
theories/Limits_proofs.v
theories/Limits_props.v
theories/Dem_model.v
theories/Dem_spec.v
theories/Dem_proofs.v
theories/Dem_lons.v
theories/Dem_files.v
theories/Dem_cases.v
theories/Dem_props.v
theories/Degrade_model.v
theories/Degrade_spec.v
theories/Degrade_func.v
theories/Degrade_proofs.v
theories/Degrade_cases.v
theories/Degrade_props.v
theories/Hires_model.v
theories/Hires_spec.v
theories/Hires_sizes.v
theories/Hires_grid.v
theories/Hires_rings.v
theories/Hires_rotation.v
theories/Hires_sphere.v
theories/Hires_gap.v
theories/Hires_props.v
theories/Ray_model.v
theories/Ray_spec.v
theories/Ray_proofs.v
theories/Ray_cases.v
theories/Ray_props.v
theories/Compose_model.v
theories/Compose_spec.v
theories/Compose_proofs.v
theories/Compose_props.v
theories/Restart_model.v
theories/Restart_spec.v
theories/Restart_proofs.v
theories/Restart_cases.v
theories/Restart_props.v
theories/Proj_model.v
theories/Proj_spec.v
theories/Proj_proofs.v
theories/Proj_cases.v
theories/Proj_wit.v
theories/Proj_props.v
theories/Arb_model.v
theories/Arb_spec.v
theories/Arb_geom.v
theories/Arb_grid.v
theories/Arb_rows.v
theories/Arb_cover.v
theories/Arb_sep.v
theories/Arb_count.v
theories/Arb_cases.v
theories/Arb_props.v
theories/Store_model.v
theories/Store_spec.v
theories/Store_proofs.v
theories/Store_cases.v
theories/Store_props.v
theories/Ref_model.v
theories/Ref_spec.v
theories/Ref_proofs.v
theories/Ref_surface.v
theories/Ref_solver.v
theories/Ref_crater.v
theories/Ref_cases.v
theories/Ref_props.v
theories/Export_model.v
theories/Export_spec.v
theories/Export_proofs.v
theories/Export_dict.v
theories/Export_table.v
theories/Export_scc.v
theories/Export_files.v
theories/Export_cases.v
theories/Export_props.v
theories/Populate_model.v
theories/Populate_spec.v
theories/Populate_proofs.v
theories/Populate_loop.v
theories/Populate_cases.v
theories/Populate_total.v
theories/Populate_props.v
theories/Emplace_model.v
theories/Emplace_spec.v
theories/Emplace_proofs.v
theories/Emplace_cases.v
theories/Emplace_props.v
theories/Overlap_model.v
theories/Overlap_spec.v
theories/Overlap_proofs.v
theories/Overlap_cases.v
theories/Overlap_props.v
theories/Footprint_model.v
theories/Footprint_spec.v
theories/Footprint_proofs.v
theories/Footprint_cases.v
theories/Footprint_props.v
theories/Outline_model.v
theories/Outline_spec.v
theories/Outline_proofs.v
theories/Outline_cases.v
theories/Outline_props.v
theories/Exports_model.v
theories/Exports_spec.v
theories/Exports_proofs.v
theories/Exports_more.v
theories/Exports_cases.v
theories/Exports_props.v
theories/Raster_model.v
theories/Raster_spec.v
theories/Raster_proofs.v
theories/Raster_cases.v
theories/Raster_props.v
theories/Place_model.v
theories/Place_spec.v
theories/Place_proofs.v
theories/Place_cases.v
theories/Place_props.v
theories/Slope_model.v
theories/Slope_spec.v
theories/Slope_proofs.v
theories/Slope_cases.v
theories/Slope_props.v
theories/Lunar_model.v
theories/Lunar_spec.v
theories/Lunar_proofs.v
theories/Lunar_props.v
theories/Solid_model.v
theories/Solid_spec.v
theories/Solid_proofs.v
theories/Solid_props.v
theories/Csfd_model.v
theories/Csfd_spec.v
theories/Csfd_proofs.v
theories/Csfd_props.v
theories/Datasurf_model.v
theories/Datasurf_spec.v
theories/Datasurf_values.v
theories/Datasurf_proofs.v
theories/Datasurf_props.v
theories/Views_model.v
theories/Views_spec.v
theories/Views_proofs.v
theories/Views_props.v
theories/Format_model.v
theories/Format_spec.v
theories/Format_proofs.v
theories/Format_props.v
theories/Label_model.v
theories/Label_spec.v
theories/Label_proofs.v
theories/Label_props.v
theories/Nd_model.v
theories/Nd_spec.v
theories/Nd_proofs.v
theories/Nd_props.v
theories/Choice_model.v
theories/Choice_spec.v
theories/Choice_proofs.v
theories/Choice_props.v
theories/Options_model.v
theories/Options_spec.v
theories/Options_proofs.v
theories/Options_props.v
theories/Objects_model.v
theories/Objects_spec.v
theories/Objects_proofs.v
theories/Objects_props.v
theories/Plot_model.v
theories/Plot_spec.v
theories/Plot_proofs.v
theories/Plot_props.v
theories/Batch_model.v
theories/Batch_spec.v
theories/Batch_proofs.v
theories/Batch_props.v
theories/Parts_model.v
theories/Parts_spec.v
theories/Parts_proofs.v
theories/Parts_props.v
theories/Tally_model.v
theories/Tally_spec.v
theories/Tally_proofs.v
theories/Tally_props.v
theories/Table_model.v
theories/Table_spec.v
theories/Table_proofs.v
theories/Table_props.v
theories/Yaml_model.v
theories/Yaml_spec.v
theories/Yaml_proofs.v
theories/Yaml_props.v
theories/Paths_model.v
theories/Paths_spec.v
theories/Paths_proofs.v
theories/Paths_props.v
theories/Cleanup_model.v
theories/Cleanup_spec.v
theories/Cleanup_proofs.v
theories/Cleanup_props.v
theories/Where_model.v
theories/Where_spec.v
theories/Where_proofs.v
theories/Where_props.v
theories/Size_model.v
theories/Size_spec.v
theories/Size_proofs.v
theories/Size_props.v
theories/Radial_model.v
theories/Radial_spec.v
theories/Radial_proofs.v
theories/Radial_props.v
theories/Near_model.v
theories/Near_spec.v
theories/Near_proofs.v
theories/Near_props.v
theories/Wkt_model.v
theories/Wkt_spec.v
theories/Wkt_proofs.v
theories/Wkt_props.v
theories/Frame_model.v
theories/Frame_spec.v
theories/Frame_proofs.v
theories/Frame_props.v
theories/Flag_model.v
theories/Flag_spec.v
theories/Flag_proofs.v
theories/Flag_props.v
theories/Units_model.v
theories/Units_spec.v
theories/Units_proofs.v
theories/Units_props.v
