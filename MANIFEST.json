{
 "claims": [
  {
   "property": "C01",
   "status": "proved",
   "theorems": [
    "C01_cutouts_tile_mosaics",
    "C01_pixel_count_check_never_fails"
   ],
   "note": "Every catalog; also the 'total_pixels != npix' check never fails."
  },
  {
   "property": "C02",
   "status": "proved",
   "theorems": [
    "C02_write_then_read"
   ],
   "note": "Types with a fill value (image, weight, seg, bmask), exact arithmetic."
  },
  {
   "property": "C03",
   "status": "proved",
   "theorems": [
    "C03_clipped_ranges",
    "C03_stamp_pixels"
   ],
   "note": ""
  },
  {
   "property": "C04",
   "status": "proved",
   "theorems": [
    "C04_mosaic_is_stack",
    "C04_split_mosaic"
   ],
   "note": ""
  },
  {
   "property": "C05",
   "status": "proved",
   "theorems": [
    "C05_mosaic_determined",
    "C05_success_independent_of_disk"
   ],
   "note": "Provided every source of a cutout supplies the type."
  },
  {
   "property": "C06",
   "status": "proved",
   "theorems": [
    "C06_exactly_the_images_containing_it"
   ],
   "note": "The sky cut and the wcs are arbitrary pointwise functions."
  },
  {
   "property": "C07",
   "status": "proved",
   "theorems": [
    "C07_recorded_positions"
   ],
   "note": ""
  },
  {
   "property": "C08",
   "status": "proved",
   "theorems": [
    "C08_slots"
   ],
   "note": ""
  },
  {
   "property": "C09",
   "status": "proved",
   "theorems": [
    "C09_even_boxes"
   ],
   "note": ""
  },
  {
   "property": "C10",
   "status": "proved",
   "theorems": [
    "C10_coadd_check_exact",
    "C10_first_cutout_is_coadd"
   ],
   "note": ""
  },
  {
   "property": "C11",
   "status": "proved",
   "theorems": [
    "C11_trim_keeps_objects_inside",
    "C11_check_never_fails_after_trim"
   ],
   "note": ""
  },
  {
   "property": "C12",
   "status": "partial",
   "theorems": [
    "C12_force_into_coadd_bounds_refuted",
    "C12_force_changes_nothing"
   ],
   "note": "The claim is false: refuted by a witness; proved instead that the option never changes a written file."
  },
  {
   "property": "C13",
   "status": "proved",
   "theorems": [
    "C13_parallel_equals_serial",
    "C13_jobs_cover"
   ],
   "note": "joblib returns outputs in submission order (contract of joblib)."
  },
  {
   "property": "C14",
   "status": "proved",
   "theorems": [
    "C14_psf_round_trip",
    "C14_shape_mismatch_raises",
    "C14_honest_shapes_succeed"
   ],
   "note": "Positive psf sizes for reading back; both directions of the shape check."
  },
  {
   "property": "C15",
   "status": "proved",
   "theorems": [
    "C15_parallel_psf_equals_serial"
   ],
   "note": "PSF rendering is a pure function in the model."
  },
  {
   "property": "C16",
   "status": "proved",
   "theorems": [
    "C16_calibration",
    "C16_significance_independent_of_scale",
    "C16_weights_stay_nonpositive"
   ],
   "note": "Exact arithmetic; scale not 0."
  },
  {
   "property": "C17",
   "status": "partial",
   "theorems": [
    "C17_skipped_type_partial",
    "C17_skipped_cutouts_are_reserved_space",
    "C17_required_type_raises",
    "C17_missing_file_skipped_refuted"
   ],
   "note": "Holds for seg, bmask, ormask, noise; false for image and weight and for the text 'none' in bytes columns (refuted); cutouts of a skipped source are whatever the reserved space held."
  },
  {
   "property": "C18",
   "status": "partial",
   "theorems": [
    "C18_writable_partial",
    "C18_no_fill_value_not_writable",
    "C18_supported_type_writable_refuted"
   ],
   "note": "Success proved for image, weight, seg, bmask; false for ormask and noise (refuted, and proved never writable)."
  },
  {
   "property": "C19",
   "status": "partial",
   "theorems": [
    "C19_second_write_exact_partial",
    "C19_second_write_raises_partial",
    "C19_second_write_partial",
    "C19_write_repeatable_refuted"
   ],
   "note": "False: the maker keeps its modified catalog, so a second write counts the cutouts again. It succeeds exactly when no object has two or more, and then every cutout is stored twice; otherwise IndexError."
  },
  {
   "property": "C20",
   "status": "proved",
   "theorems": [
    "C20_types_normalised",
    "C20_image_once",
    "C20_unsupported_raises",
    "C20_error_is_ValueError"
   ],
   "note": "Aliasing of the caller's list is not expressed: lists are values in the model. 'image' given twice stays twice."
  },
  {
   "property": "C21",
   "status": "proved",
   "theorems": [
    "C21_complement_bits",
    "C21_only_allowed_bits"
   ],
   "note": ""
  },
  {
   "property": "C22",
   "status": "partial",
   "theorems": [
    "C22_recorded_position_on_image",
    "C22_other_offset_refuted"
   ],
   "note": "Proved for position_offset 1; false for other offsets (refuted with offset 0)."
  },
  {
   "property": "C23",
   "status": "partial",
   "theorems": [
    "C23_out_of_range_rejected_partial",
    "C23_negative_index_refuted"
   ],
   "note": "Proved for non-negative indices; false for negative ones (refuted)."
  },
  {
   "property": "C24",
   "status": "partial",
   "theorems": [
    "C24_empty_object_partial",
    "C24_psf_mosaic_refuted",
    "C24_psf_list_of_empty_object_refuted"
   ],
   "note": "List accessors of cutouts and Jacobians agree; false for get_psf_list and get_mosaic('psf') (refuted)."
  },
  {
   "property": "C25",
   "status": "proved",
   "theorems": [
    "C25_maker_files_wf",
    "C25_cweight",
    "C25_cseg",
    "C25_interpolation"
   ],
   "note": "Equality including errors, on every well-formed file (tiled mosaics); maker files are well-formed (C25_maker_files_wf)."
  },
  {
   "property": "C26",
   "status": "proved",
   "theorems": [
    "C26_cweight_semantics",
    "C26_weights_kept_or_zeroed",
    "C26_restrict_removes_more"
   ],
   "note": "Exact characterisation by seen/same_sky (exact rational Jacobians, round half to even); central position assumed non-negative (negative would wrap)."
  },
  {
   "property": "C27",
   "status": "partial",
   "theorems": [
    "C27_zero_outside_refuted",
    "C27_cseg_partial"
   ],
   "note": "Full claim refuted: sky pixels outside the object's seg region keep the number. What holds is proved in C27_cseg_partial."
  },
  {
   "property": "C28",
   "status": "proved",
   "theorems": [
    "C28_interpolation_semantics",
    "C28_singular_jacobian",
    "C28_same_geometry"
   ],
   "note": "Each value is the coadd seg value nearest the mapped position (hence a coadd seg value); a singular coadd Jacobian is the only error."
  },
  {
   "property": "C29",
   "status": "proved",
   "theorems": [
    "C29_python_uberseg",
    "C29_only_removes"
   ],
   "note": "Statement on any well-formed file, object and cutout, through get_cweight_cutout and interpolate_coadd_seg. ~two_values together with one object pixel covers 'more than two values' and also single-valued maps."
  },
  {
   "property": "C30",
   "status": "proved",
   "theorems": [
    "C30_direct_equals_python"
   ],
   "note": "Bit-for-bit equality of the two results. For object number 0 they differ (C30_number_zero)."
  },
  {
   "property": "C31",
   "status": "proved",
   "theorems": [
    "C31_tree_uberseg",
    "C31_tree_equals_python_without_ties",
    "C31_any_arrays"
   ],
   "note": "Exact arithmetic (the C code computes distances in 32-bit floats, exact for stamps below a few thousand pixels except the growing radius). Fuel bounds the radius loop: the theorem shows that it stops."
  },
  {
   "property": "C32",
   "status": "proved",
   "theorems": [
    "C32_build",
    "C32_find_sphere"
   ],
   "note": "Radii are compared by exact squares. Points at exactly the radius may or may not be returned (they are when the whole box is inside)."
  },
  {
   "property": "C33",
   "status": "partial",
   "theorems": [
    "C33_all_sky_refuted",
    "C33_all_sky",
    "C33_returns_partial"
   ],
   "note": "The claim is false: for an all-sky map the Python code raises ValueError and the C code never returns (OutOfFuel for every fuel). Proved: it returns whenever there is an object pixel."
  },
  {
   "property": "C34",
   "status": "partial",
   "theorems": [
    "C34_shortcut_refuted",
    "C34_shortcut_partial"
   ],
   "note": "The claim is false when the object's own number is absent from the two-valued map. Proved: the shortcut obeys the nearest-object rule if the number occurs and either sky occurs or the central seg value is the number."
  },
  {
   "property": "C35",
   "status": "proved",
   "theorems": [
    "C35_circular_weight",
    "C35_needs_number"
   ],
   "note": "The pixel keeps its weight iff it is strictly closer to the centre than every pixel of another object. Without a number column the accessor always raises."
  },
  {
   "property": "C36",
   "status": "proved",
   "theorems": [
    "C36_outlier_criterion",
    "C36_fewer_than_three_images",
    "C36_median_unique"
   ],
   "note": "Over the real numbers; lists of equal length, weight maps distinct and not shared with the images (otherwise the in-place updates interfere). Median per pixel characterised by sorting and shown unique; exact list of rejected pixels, clipping of negative weights, all other arrays untouched."
  },
  {
   "property": "C37",
   "status": "proved",
   "theorems": [
    "C37_idempotent"
   ],
   "note": "Second application changes nothing and returns 0 (weight arrays may be shared among themselves; no image may be a weight map). Over the real numbers."
  },
  {
   "property": "C38",
   "status": "proved",
   "theorems": [
    "C38_contains_point",
    "C38_contains_points",
    "C38_contains_bounds",
    "C38_contains_bounds_transitive",
    "C38_contained_points",
    "C38_expand_points",
    "C38_expand_point",
    "C38_intersects",
    "C38_intersects_symmetric"
   ],
   "note": "Exact rationals. contains_points shown equal to contains_point pointwise; containment = point-set inclusion; expand_* give the smallest bounds."
  },
  {
   "property": "C39",
   "status": "partial",
   "theorems": [
    "C39_expand_bounds_refuted",
    "C39_contains_old",
    "C39_contains_new_partial"
   ],
   "note": "The English claim is false: expand_bounds uses elif, so bounds sticking out on both sides of an axis are not covered (C39_expand_bounds_refuted). Exact condition for containment proved (iff)."
  },
  {
   "property": "C40",
   "status": "proved",
   "theorems": [
    "C40_offset_round_trip",
    "C40_inverse_round_trip",
    "C40_difference_is_offset"
   ],
   "note": "Exact rationals; floating-point rounding not modelled."
  },
  {
   "property": "C41",
   "status": "proved",
   "theorems": [
    "C41_gnomonic",
    "C41_undefined_at_90_degrees",
    "C41_centre",
    "C41_periodic",
    "C41_norm",
    "C41_u_direction",
    "C41_v_on_the_meridian",
    "C41_orthonormal"
   ],
   "note": "Over the real numbers, equal to the standard gnomonic projection up to the sign of u; nothing on floats."
  },
  {
   "property": "C42",
   "status": "partial",
   "theorems": [
    "C42_hemisphere_refuted",
    "C42_antipodes_always_together",
    "C42_cut_is_bounds_partial",
    "C42_nothing_on_the_image_is_cut"
   ],
   "note": "The English claim is false: the rough cut accepts the antipode of every accepted position (refuted, with a tangent-plane WCS as witness). Proved: exact condition of the cut, and that no position of an image with linear tangent-plane WCS is lost."
  },
  {
   "property": "C43",
   "status": "proved",
   "theorems": [
    "C43_maker_files",
    "C43_any_file"
   ],
   "note": "Stated for every well formed file (any psf layout the extractor supports) and specialised to maker-written files; covers cutouts of every type except ormask, psfs, all non-start columns, source info and jacobians."
  },
  {
   "property": "C44",
   "status": "partial",
   "theorems": [
    "C44_only_image_refuted",
    "C44_ormask_refuted",
    "C44_types_partial"
   ],
   "note": "Refuted: a maker file with image only makes the extraction raise, and ormask is dropped (or, with copy_all, copied without shifting the rows, so that reads give other pixels). Proved for the remaining types of files with image, weight, seg. Unknown extensions: C122."
  },
  {
   "property": "C45",
   "status": "proved",
   "theorems": [
    "C45_compose",
    "C45_compose_without_cutouts"
   ],
   "note": "Exact equality of the two files when the inner range has a cutout; otherwise both have the same rows up to start columns and all accessors raise."
  },
  {
   "property": "C46",
   "status": "proved",
   "theorems": [
    "C46_without_cutouts"
   ],
   "note": "Any file."
  },
  {
   "property": "C47",
   "status": "proved",
   "theorems": [
    "C47_numbers",
    "C47_maker_files"
   ],
   "note": "For every permutation in which the table rows may be returned; the output is a well formed file again. Stated from the constructor arguments to the file on disk, and for maker-written files."
  },
  {
   "property": "C48",
   "status": "partial",
   "theorems": [
    "C48_row_carries_number",
    "C48_duplicate_refuted",
    "C48_one_number_partial",
    "C48_raises_partial",
    "C48_unique_found"
   ],
   "note": "Refuted: a repeated number one of whose rows is row number-1 is accepted. The exact condition for AssertionError is proved."
  },
  {
   "property": "C49",
   "status": "partial",
   "theorems": [
    "C49_psf_box_refuted",
    "C49_no_bmask_refuted",
    "C49_psf_per_object_refuted",
    "C49_layouts_partial"
   ],
   "note": "Refuted for psf_box_size, for sizes per object and for files without bmask."
  },
  {
   "property": "C50",
   "status": "partial",
   "theorems": [
    "C50_same_name_refuted",
    "C50_alias_refuted",
    "C50_input_untouched_partial",
    "C50_only_the_output_touched",
    "C50_rejected_without_cleanup_partial"
   ],
   "note": "Refuted for equal names with cleanup=True (the destructor deletes the input after the constructor rejected the arguments) and for two names of one file. Proved whenever the two names are different files."
  },
  {
   "property": "C51",
   "status": "proved",
   "theorems": [
    "C51_catalog_copied"
   ],
   "note": "From the constructor to the files on disk; metadata table kept as an opaque value."
  },
  {
   "property": "C52",
   "status": "proved",
   "theorems": [
    "C52_flags_and_counts",
    "C52_one_documented_bit",
    "C52_total"
   ],
   "note": "Outlier rejection, psf, interpolation, noise and psc's coadd are parameters; rejection is assumed to keep the shapes of the weight maps. C52_total needs max_masked_frac < 1, the stamp_edge check on and a coadd cutout with non-singular jacobian."
  },
  {
   "property": "C53",
   "status": "proved",
   "theorems": [
    "C53_ormask"
   ],
   "note": "The masks are those after symmetrisation, if configured."
  },
  {
   "property": "C54",
   "status": "proved",
   "theorems": [
    "C54_layout",
    "C54_pixels",
    "C54_rows",
    "C54_written",
    "C54_coadder_gives_stamps",
    "C54_coadds_written"
   ],
   "note": "Proved for any coadder giving stamps of the object's size and square psfs, and for the package's own coadder under the same assumption on psc. obj_range with negative indices: C143. total_psf_pixels is supplied by the sub class; the space must suffice."
  },
  {
   "property": "C55",
   "status": "partial",
   "theorems": [
    "C55_weight",
    "C55_mask",
    "C55_unusable_stays",
    "C55_weight_invariant_refuted",
    "C55_mask_invariant_refuted",
    "C55_bits_kept_refuted"
   ],
   "note": "What becomes of each pixel is proved; invariance under rotation is refuted for weights and masks (one rotation is added, not the orbit), and bits of a mask pixel can be lost, so that a cutout no longer hits the edge."
  },
  {
   "property": "C56",
   "status": "partial",
   "theorems": [
    "C56_any_flag_refuted",
    "C56_exactly_disjoint",
    "C56_bad_pixels_partial",
    "C56_edge_pixels_partial"
   ],
   "note": "Flags are summed: refuted for lists with shared bits, e.g. a repeated flag; C56_exactly_disjoint shows the claim holds exactly for lists without shared bits."
  },
  {
   "property": "C57",
   "status": "partial",
   "theorems": [
    "C57_stamp_edge_switch_refuted",
    "C57_stamp_edge_off_raises",
    "C57_stamp_edge_off_unused",
    "C57_central_off",
    "C57_every_size_refuted",
    "C57_central_rejected_partial",
    "C57_central_detected_partial",
    "C57_central_only_partial",
    "C57_checks_total"
   ],
   "note": "stamp_edge.check=False raises UnboundLocalError instead of switching the check off, so that no cutout can be used. Central sizes above the stamp size slice from a negative index and miss pixels. Proved for sizes up to the stamp and for central_region.check=False."
  },
  {
   "property": "C58",
   "status": "proved",
   "theorems": [
    "C58_interpolation"
   ],
   "note": "Any interpolator that gives one value per position asked for."
  },
  {
   "property": "C59",
   "status": "partial",
   "theorems": [
    "C59_same_behaviour_refuted",
    "C59_history",
    "C59_same_behaviour_partial"
   ],
   "note": "The entry dither_psfs is popped from the caller's dictionary: a second coadder built from it uses True. C59_history gives the settings in every history; equality is proved when dither_psfs is absent or true."
  },
  {
   "property": "C60",
   "status": "proved",
   "theorems": [
    "C60_exact_types",
    "C60_weights_only_reported",
    "C60_images_only_reported",
    "C60_self"
   ],
   "note": "Random subsets and esutil's matching are parameters (every subset, every correct matching). Also says exactly what is only reported: weights and images never raise for pixel differences."
  },
  {
   "property": "C61",
   "status": "partial",
   "theorems": [
    "C61_default_refuted",
    "C61_without_pictures"
   ],
   "note": "Refuted: with the default png_prefix=False, go() never completes for any pair of files (C61_default_refuted). With png_prefix=None it completes for readable, compatible files."
  },
  {
   "property": "C62",
   "status": "proved",
   "theorems": [
    "C62_cutouts",
    "C62_no_other_cutouts",
    "C62_mosaics",
    "C62_no_other_mosaics",
    "C62_facts",
    "C62_no_other_facts",
    "C62_no_such_object"
   ],
   "note": "Model of meds_open and of all cutout accessors of src/meds.c; a NULL return is None. Memory allocation is assumed to succeed and C integers not to overflow. A source file id beyond image_info makes the C library return a dangling pointer (modelled as IndexError)."
  },
  {
   "property": "C63",
   "status": "partial",
   "theorems": [
    "C63_requested_cutout_refuted",
    "C63_first_cutout_partial"
   ],
   "note": "False: the pointer returned is always that of the first cutout (refutation with a witness); proved: it is exactly the distortion of cutout 0."
  },
  {
   "property": "C64",
   "status": "partial",
   "theorems": [
    "C64_large_enough_refuted",
    "C64_when_large_enough_partial"
   ],
   "note": "False: when the wcs column is wider than the image column the sky width is taken instead (refutation with witness); proved: exactly when the buffer is large enough."
  },
  {
   "property": "C65",
   "status": "proved",
   "theorems": [
    "C65_smallest",
    "C65_largest",
    "C65_monotone",
    "C65_idempotent",
    "C65_box_is_fft_size",
    "C65_box_at_most",
    "C65_box_at_least",
    "C65_box_covers",
    "C65_box_smallest"
   ],
   "note": "Exact arithmetic for the sigma size; the cast of ceil is exact. The smallest-size statement excludes the size 3, because the sigma size is always even."
  },
  {
   "property": "C66",
   "status": "partial",
   "theorems": [
    "C66_accepts_maker_files",
    "C66_image_info_checked",
    "C66_missing_table_refuted",
    "C66_fails_partial",
    "C66_reports_partial"
   ],
   "note": "Accepts maker files: proved. A missing object_data, image_info or metadata table raises in the MEDS constructor and is never reported (refutation); otherwise exactly the missing extensions and columns are reported."
  },
  {
   "property": "C67",
   "status": "partial",
   "theorems": [
    "C67_collision_refuted",
    "C67_written_metadata_rejected_partial",
    "C67_columns_partial"
   ],
   "note": "A metadata column with the name of a version column makes the constructor raise ValueError (refutation), in particular the metadata of any written file; otherwise all columns are kept and the version columns added."
  },
  {
   "property": "C68",
   "status": "proved",
   "theorems": [
    "C68_source_info"
   ],
   "note": ""
  },
  {
   "property": "C69",
   "status": "partial",
   "theorems": [
    "C69_empty_object_refuted",
    "C69_empty_object_raises",
    "C69_no_file"
   ],
   "note": "Refuted: an object without cutouts raises ValueError in get_cutout_list and no file is written. C54_coadds_written covers files in which every object has a cutout."
  },
  {
   "property": "C70",
   "status": "partial",
   "theorems": [
    "C70_any_position_refuted",
    "C70_lower_bound_partial",
    "C70_from_a_point_partial"
   ],
   "note": "False from a position that is not a point (refutation: the diagonal of a box is returned); proved: a lower bound from everywhere, and exact from every point of the tree."
  },
  {
   "property": "C71",
   "status": "partial",
   "theorems": [
    "C71_reasons_recorded_refuted",
    "C71_reasons_recorded_partial"
   ],
   "note": "Refuted: when all cutouts of an object are left out their reasons are dropped and orig_flags keeps -9999. Proved for objects with a coadd."
  },
  {
   "property": "C72",
   "status": "partial",
   "theorems": [
    "C72_empty_first_refuted",
    "C72_stale_picture_refuted",
    "C72_pictures_partial"
   ],
   "note": "Refuted: UnboundLocalError when the first object looked at is empty; a later empty object gets the picture of the object before it. Holds when all objects looked at have a common cutout."
  },
  {
   "property": "C73",
   "status": "partial",
   "theorems": [
    "C73_opens_maker_files_refuted",
    "C73_documented_columns_rejected_partial",
    "C73_when_opened_partial"
   ],
   "note": "False: the documented image_info columns include neither wcs_path nor sky_path, so meds_open returns NULL (refutation, and for every file with just these columns); proved: exactly when meds_open succeeds."
  },
  {
   "property": "C74",
   "status": "partial",
   "theorems": [
    "C74_every_field_refuted",
    "C74_fields_before_a_gap_partial"
   ],
   "note": "False: the cfitsio status is never reset, so after the first missing column every later field is lost (refutation); proved: exactly which fields are returned."
  },
  {
   "property": "C75",
   "status": "partial",
   "theorems": [
    "C75_psf_named_column_refuted",
    "C75_columns_partial",
    "C75_computed_partial"
   ],
   "note": "A column with the name of one of the five psf columns is silently dropped when there is no psf_data (refutation). Proved: every column with a name the maker does not compute is written with its shape and rows (box_size apart, which may be made even); kinds and sizes of numbers are not modelled."
  },
  {
   "property": "C76",
   "status": "partial",
   "theorems": [
    "C76_reuse_refuted",
    "C76_counts_partial",
    "C76_width_partial",
    "C76_column_width_partial",
    "C76_taken_over_partial"
   ],
   "note": "False: ncutout and the columns of the cutouts of the input are copied, so cutouts are added after the old ones (refutation: each object gets its cutout twice). Proved: the new count is the old one plus the number of accepting images (without psf_data and trimming); columns of another width are an error."
  },
  {
   "property": "C77",
   "status": "partial",
   "theorems": [
    "C77_rows_refuted",
    "C77_fails_partial",
    "C77_columns_partial"
   ],
   "note": "False for metadata of other than one row: ValueError (refutation). Proved for one row: all columns kept, versions replaced."
  },
  {
   "property": "C78",
   "status": "partial",
   "theorems": [
    "C78_source_refuted",
    "C78_geometry_partial",
    "C78_source_partial"
   ],
   "note": "The source info is always that of the first image (refutation when the object's first cutout is from another image). Proved: sky position, Jacobian, centre, original position; the sources agree when cutout 0 is from image 0."
  },
  {
   "property": "C79",
   "status": "proved",
   "theorems": [
    "C79_single_precision",
    "C79_equals_python_without_ties",
    "C79_any_arrays",
    "C79_rounding",
    "C79_integers"
   ],
   "note": "Exponent range unbounded (no overflow or underflow); values stay between 1/2 and 2^30 in practice. Fused multiply-add gives the same values since all products are exact."
  },
  {
   "property": "C80",
   "status": "proved",
   "theorems": [
    "C80_objects_independent"
   ],
   "note": "Pixels of a type only for sources that have a file of the type (otherwise see C17)."
  },
  {
   "property": "C81",
   "status": "proved",
   "theorems": [
    "C81_later_images_only_append"
   ],
   "note": "Both runs are assumed to succeed; the catalogs may differ too."
  },
  {
   "property": "C82",
   "status": "proved",
   "theorems": [
    "C82_unused_colours",
    "C82_color_before_wcs_color",
    "C82_used_colours",
    "C82_used_psf_colours"
   ],
   "note": "A configured colour without the column: the wcs or psf is called without one (as color=None in the code)."
  },
  {
   "property": "C83",
   "status": "proved",
   "theorems": [
    "C83_extract_of_made"
   ],
   "note": "Without trimming to the coadd; the first file has image, weight and seg; at least one cutout in the range. The width of the per-cutout columns may differ."
  },
  {
   "property": "C84",
   "status": "proved",
   "theorems": [
    "C84_weights_renamed",
    "C84_segs_renamed"
   ],
   "note": "Seg values and numbers are non-negative integers."
  },
  {
   "property": "C85",
   "status": "partial",
   "theorems": [
    "C85_lines_partial",
    "C85_lines_with_ids_partial",
    "C85_rejected_partial",
    "C85_words_rejected_refuted",
    "C85_numbers_partial"
   ],
   "note": "Refuted: an id file with other text after enough ids is accepted (C85_words_rejected_refuted). a_world is assumed not 0 (undefined conversion in C); printing of doubles, integer overflow and failures of cfitsio inside a table are not modelled."
  },
  {
   "property": "C86",
   "status": "partial",
   "theorems": [
    "C86_mosaic_partial",
    "C86_cutout_partial",
    "C86_nothing_written_partial",
    "C86_other_files_partial",
    "C86_failure_status_refuted",
    "C86_index_checked_refuted",
    "C86_input_kept_refuted"
   ],
   "note": "Refuted: the exit status is 0 when nothing was extracted; a word is read as index 0; with the MEDS file as output file the MEDS file is replaced. Proved: what is written, that nothing is written for a missing cutout, that other files are unchanged."
  },
  {
   "property": "C87",
   "status": "proved",
   "theorems": [
    "C87_epochs",
    "C87_objects"
   ],
   "note": "The numbers themselves are an arbitrary stream g: that RandomState.normal gives independent normal numbers is not modelled. The resampling of the noise maps by the coadder is the oracle or_coadd."
  },
  {
   "property": "C88",
   "status": "partial",
   "theorems": [
    "C88_planes_partial",
    "C88_call_partial",
    "C88_same_start_partial",
    "C88_noise_refuted"
   ],
   "note": "False for the noise: the generator is shared, so an object's noise depends on how many numbers the objects coadded before it took. Hypotheses on the oracles: reject_outliers keeps shapes, coadds are square stamps, interpolation is total, and the coadd planes other than noise are computed without the noise maps of the inputs."
  },
  {
   "property": "C89",
   "status": "partial",
   "theorems": [
    "C89_asked_partial",
    "C89_other_rows_refuted"
   ],
   "note": "False for the objects not asked for: _write_cutouts changes self.obj_data in place and never resets it, so the second file of one maker has stale rows that point into other objects' pixels."
  },
  {
   "property": "C90",
   "status": "partial",
   "theorems": [
    "C90_integers_partial",
    "C90_refuted"
   ],
   "note": "False for 64 bit sources with the default i4: flag 2**40 and number 2**32 are stored as 0, without error."
  },
  {
   "property": "C91",
   "status": "proved",
   "theorems": [
    "C91_image",
    "C91_weight",
    "C91_exact"
   ],
   "note": "scale**2 is taken to be the product rounded once. Backgrounds of integer type are not covered."
  },
  {
   "property": "C92",
   "status": "partial",
   "theorems": [
    "C92_floats_partial",
    "C92_only_floats",
    "C92_refuted"
   ],
   "note": "False for integers: im *= scale and subim += default raise TypeError for integer images, weights, or an integer image_dtype or weight_dtype."
  },
  {
   "property": "C93",
   "status": "proved",
   "theorems": [
    "C93_grid",
    "C93_combined"
   ],
   "note": "int(sqrt(n)) is taken as the exact integer square root (true below 2^52); numpy would repeat an image with a single row or column, the model raises."
  },
  {
   "property": "C94",
   "status": "partial",
   "theorems": [
    "C94_separate_partial",
    "C94_combined_partial",
    "C94_same_way_up_refuted"
   ],
   "note": "Refuted. Positions are those in the array handed to biggles, whose second axis is the height."
  },
  {
   "property": "C95",
   "status": "proved",
   "theorems": [
    "C95_objects",
    "C95_pictures",
    "C95_nothing_asked"
   ],
   "note": "Psf and uberseg pictures are assumed readable with images of one size for each object; types stored as mosaics only need their extension (and the weights for images). The text of names and of the page is not modelled."
  },
  {
   "property": "C96",
   "status": "partial",
   "theorems": [
    "C96_page_complete_iff_partial",
    "C96_quit_refuted",
    "C96_beyond_end_refuted"
   ],
   "note": "Refuted; closing of the file object by the interpreter is not modelled."
  },
  {
   "property": "C97",
   "status": "partial",
   "theorems": [
    "C97_image_partial",
    "C97_negative_refuted",
    "C97_white_refuted",
    "C97_nan_refuted",
    "C97_psf_partial",
    "C97_flat_psf_refuted",
    "C97_seg_partial",
    "C97_sign_bit_refuted"
   ],
   "note": "Refuted outside the stated conditions. Rounding to 4 byte floats is not modelled; square root and logarithm are parameters, the latter increasing with value 0 at 1. Pictures with --combine are scaled once more by the largest pixel of all."
  },
  {
   "property": "C98",
   "status": "proved",
   "theorems": [
    "C98_box"
   ],
   "note": "exact rational coordinates, two dimensions"
  },
  {
   "property": "C99",
   "status": "partial",
   "theorems": [
    "C99_radius_refuted",
    "C99_sphere_partial"
   ],
   "note": "points at exactly the radius are returned if their node lies inside the sphere and not otherwise (refuted witness)"
  },
  {
   "property": "C100",
   "status": "partial",
   "theorems": [
    "C100_only_later_refuted",
    "C100_skip_partial"
   ],
   "note": "earlier points may be returned too (refuted witness); everything else proved"
  },
  {
   "property": "C101",
   "status": "partial",
   "theorems": [
    "C101_periodic_partial",
    "C101_code_partial",
    "C101_extent_partial",
    "C101_too_large_refuted",
    "C101_outside_refuted"
   ],
   "note": "for centres inside the period and 2r <= period; otherwise refuted: with a larger radius 0 is returned and the earlier results stay, and from a centre outside the period points are missed; points at exactly the radius as in C99"
  },
  {
   "property": "C102",
   "status": "partial",
   "theorems": [
    "C102_empty_refuted",
    "C102_moved_partial"
   ],
   "note": "all trees with points; the empty tree is the refuted witness"
  },
  {
   "property": "C103",
   "status": "proved",
   "theorems": [
    "C103_not_finite"
   ],
   "note": ""
  },
  {
   "property": "C104",
   "status": "proved",
   "theorems": [
    "C104_build_memory"
   ],
   "note": "Coordinates exact; realloc always moves and never fails."
  },
  {
   "property": "C105",
   "status": "proved",
   "theorems": [
    "C105_search_memory"
   ],
   "note": "Coordinates exact; realloc never fails."
  },
  {
   "property": "C106",
   "status": "partial",
   "theorems": [
    "C106_within_buffers_refuted",
    "C106_full_name_fails_partial",
    "C106_within_partial",
    "C106_exactly_partial",
    "C106_shorter_names_partial"
   ],
   "note": "False: buffers have the width of the column and no cell for the terminating zero, so a name or metadata text that fills its column is written one byte too far (C106_within_buffers_refuted; C106_full_name_fails_partial for every file). Proved: no fault when names are shorter than the buffer (C106_within_partial), and for a readable file exactly then (C106_exactly_partial)."
  },
  {
   "property": "C107",
   "status": "partial",
   "theorems": [
    "C107_everything_back_refuted",
    "C107_failure_refuted",
    "C107_account_partial",
    "C107_desdata_partial"
   ],
   "note": "False: DESDATA is never freed (C107_everything_back_refuted), and four arrays stay allocated when a row of object_data cannot be read (C107_failure_refuted). Proved for every file: no double free, no use of freed memory, the file is closed, and the exact list of what is lost (C107_account_partial)."
  },
  {
   "property": "C108",
   "status": "partial",
   "theorems": [
    "C108_nothing_lost_refuted",
    "C108_account_partial"
   ],
   "note": "False: the pixels are lost when the extension is missing (C108_nothing_lost_refuted). Proved for every list of requests: no fault, and exactly those pixels are lost (C108_account_partial)."
  },
  {
   "property": "C109",
   "status": "partial",
   "theorems": [
    "C109_wrapped_refuted",
    "C109_number_refuted",
    "C109_double_refuted",
    "C109_same_partial",
    "C109_rounded_partial",
    "C109_two_values_partial"
   ],
   "note": "False in general (C109_wrapped_refuted, C109_number_refuted, C109_double_refuted); the positive theorems cover seg values that fit a C int and weights that are f4 numbers, and say what happens to other weights."
  },
  {
   "property": "C110",
   "status": "partial",
   "theorems": [
    "C110_status_refuted",
    "C110_failure_refuted",
    "C110_range_partial",
    "C110_range_outcomes_partial",
    "C110_negative_partial",
    "C110_catalog_partial",
    "C110_catalog_outcomes_partial",
    "C110_integers_partial"
   ],
   "note": "False in general (C110_status_refuted, C110_failure_refuted); the positive theorems give every outcome of every command line. For the catalog a failure changes nothing."
  },
  {
   "property": "C111",
   "status": "partial",
   "theorems": [
    "C111_images_refuted",
    "C111_objects_refuted",
    "C111_status_partial",
    "C111_no_file_partial"
   ],
   "note": "False in general (C111_images_refuted, C111_objects_refuted); C111_status_partial says exactly what status 0 means for readable files without pictures. argparse is not modelled and the ids are the column id."
  },
  {
   "property": "C112",
   "status": "partial",
   "theorems": [
    "C112_reference_refuted",
    "C112_reference_partial",
    "C112_centre_partial",
    "C112_file_id_partial",
    "C112_distortion_partial",
    "C112_cutout_partial",
    "C112_mosaic_partial"
   ],
   "note": "False for meds_get_source_info (C112_reference_refuted; C112_reference_partial says exactly when); the other accessors are covered by the positive theorems."
  },
  {
   "property": "C113",
   "status": "partial",
   "theorems": [
    "C113_bitmask_refuted",
    "C113_psf_refuted",
    "C113_joblib_refuted",
    "C113_text_refuted",
    "C113_layout_partial",
    "C113_output_partial",
    "C113_extname_partial",
    "C113_order_partial",
    "C113_default_partial",
    "C113_accepts_partial",
    "C113_file_partial"
   ],
   "note": "False in general (C113_bitmask_refuted, C113_psf_refuted, C113_joblib_refuted, C113_text_refuted); the positive theorems cover every entry that the modelled maker reads. fpack_pars is not modelled, and a value of the wrong type is an error at once although the code raises when it is first used."
  },
  {
   "property": "C114",
   "status": "proved",
   "theorems": [
    "C114_own_astrometry",
    "C114_one_astrometry"
   ],
   "note": "The WCS objects of esutil are oracles (transformations, size); get_wcs of a psf returns either one object each time or a new copy each time."
  },
  {
   "property": "C115",
   "status": "partial",
   "theorems": [
    "C115_unchanged_refuted",
    "C115_objects_partial"
   ],
   "note": "False (C115_unchanged_refuted); C115_objects_partial gives the exact final state of every object."
  },
  {
   "property": "C116",
   "status": "partial",
   "theorems": [
    "C116_incomplete_refuted",
    "C116_other_files",
    "C116_complete_partial",
    "C116_layout_partial",
    "C116_left_partial"
   ],
   "note": "False in general (C116_incomplete_refuted). C116_other_files, C116_complete_partial and C116_layout_partial are the parts that hold; C116_left_partial says what the incomplete file contains. One write of a cutout is atomic, and writing tables does not fail in the model."
  },
  {
   "property": "C117",
   "status": "partial",
   "theorems": [
    "C117_adds_up_refuted",
    "C117_central_pixel_refuted",
    "C117_off_the_image_refuted",
    "C117_buffer_refuted",
    "C117_none_lost",
    "C117_inside_partial",
    "C117_usual_offsets",
    "C117_usual_positions",
    "C117_coarse_partial",
    "C117_positions_partial",
    "C117_exact_partial",
    "C117_written_partial"
   ],
   "note": "Four parts of the claim are refuted by rounding of the last bit; the _partial theorems bound the effect, C117_none_lost, C117_usual_offsets and C117_usual_positions hold without tolerance. Clipping to the coadd bounds is left out: it does not change accepted positions."
  },
  {
   "property": "C118",
   "status": "partial",
   "theorems": [
    "C118_distorted_refuted",
    "C118_tangent_plane_partial",
    "C118_distortion_partial"
   ],
   "note": "False for distorted images (refuted by a witness with the default buffer). Proved: every tangent-plane WCS with corners within 45 degrees of the centre, any buffer; any WCS within half the buffer of an affine map."
  },
  {
   "property": "C119",
   "status": "partial",
   "theorems": [
    "C119_names_refuted",
    "C119_longer_names",
    "C119_names_partial",
    "C119_kept",
    "C119_refused",
    "C119_astrometry",
    "C119_versions"
   ],
   "note": "False for names longer than path_len: cut silently, possibly to the name of another image (refuted). Proved: names that fit and have no white space at the ends; which texts are kept; astrometry texts that do not fit raise; version strings."
  },
  {
   "property": "C120",
   "status": "proved",
   "theorems": [
    "C120_boxes",
    "C120_input",
    "C120_unset"
   ],
   "note": "Input boxes of -1 become 0 and are not covered; objects on no image keep any box size."
  },
  {
   "property": "C121",
   "status": "proved",
   "theorems": [
    "C121_refused",
    "C121_complete",
    "C121_other_files",
    "C121_again",
    "C121_generator",
    "C121_coadder"
   ],
   "note": "C121_coadder takes the external interpolation, outlier rejection and psc as for C88. One hdu.write happens completely or not at all; writing tables and reserving does not fail. C116 is the counterpart for MEDSMaker, which writes object_data first."
  },
  {
   "property": "C122",
   "status": "partial",
   "theorems": [
    "C122_once_refuted",
    "C122_left_refuted",
    "C122_extensions_partial",
    "C122_found_partial",
    "C122_same_partial",
    "C122_left_partial"
   ],
   "note": "Refuted: with copy_all noise_cutouts is written twice, the second time unshifted (default_ext has 'noise'); an extraction that fails after image_cutouts leaves a file that opens and validates. Proved: the list of extensions, foreign extensions found as they were, agreement with the cutout model, exact prefix left by a failure. Header cards are not modelled; number extraction has no copy_all."
  },
  {
   "property": "C123",
   "status": "partial",
   "theorems": [
    "C123_answers_refuted",
    "C123_answers_partial",
    "C123_tables_partial",
    "C123_kept",
    "C123_others"
   ],
   "note": "Refuted for the tables: get_cat, get_image_info, get_source_info and m[name] hand out the object's own arrays, assigning to them changes later answers; proved: exactly as if the file had those tables (C123_tables_partial). Proved for all image, list, composite, uberseg and jacobian accessors. Views of image_info rows are assignments to the whole table; metadata, closing the file and dicts of get_jacobian are left out."
  },
  {
   "property": "C124",
   "status": "partial",
   "theorems": [
    "C124_refuted",
    "C124_partial",
    "C124_late_partial",
    "C124_arrays"
   ],
   "note": "Refuted for psf_data and psf_info, which are kept by reference in spite of the comment 'make copies since we may alter some things' in __init__: replacing one of them (in place) before write changes the file. Proved for obj_data, image_info and meta_data, with psf_data and psf_info as they are at the time of the write (C124_late_partial); the program's arrays are never changed (C124_arrays). Only the first write of each maker (a second one is C19); nested dictionaries of the configuration (shared by reference too) are not cells of the memory; a maker whose write failed keeps its obj_data here."
  },
  {
   "property": "C125",
   "status": "partial",
   "theorems": [
    "C125_refuted",
    "C125_frame_refuted",
    "C125_pixel_partial",
    "C125_cweight_partial",
    "C125_cseg_partial",
    "C125_interpolate_partial",
    "C125_frame_partial",
    "C125_no_inverse"
   ],
   "note": "Refuted: positions half way between coadd pixels can go to the other one (0.168 arc seconds per pixel, half a pixel offset), even with the exact inverse rounded; and an invertible but nearly singular Jacobian gives another map in the coadd's own frame. Proved: the pixel used is within half a pixel plus the tolerance (1e-10 pixels for ordinary images), equality with the exact accessors when no position is within the tolerance of a tie, and the coadd's own map in its frame when the tolerance is below half a pixel. The inverse (LAPACK) is a parameter with a stated error bound; the sizes are bounded by B*M*N <= 2^30; signs of zero are not modelled."
  },
  {
   "property": "C126",
   "status": "partial",
   "theorems": [
    "C126_nan_refuted",
    "C126_overflow_refuted",
    "C126_criterion_partial",
    "C126_median_finite",
    "C126_nan_partial",
    "C126_total",
    "C126_weights",
    "C126_count",
    "C126_few"
   ],
   "note": "Refuted: a NaN in one image keeps its own weight and shields that pixel in all other images (the median is NaN and no comparison holds); a float32 deviation of 2^64 with sigma 2^63 (2 sigma) is rejected at 5 sigma since its square overflows. Proved: without NaN and with finite middle values (they are finite when more than half of the values are) the criterion holds up to one part in 10^4 for moderate sizes, infinite pixels included; with a NaN exactly clipping happens; totality, weights cleared or clipped, and the count hold for all numbers. Images of integers, shared arrays (modelled in Outlier.v) and broadcasting are not modelled here."
  },
  {
   "property": "C127",
   "status": "partial",
   "theorems": [
    "C127_positive_refuted",
    "C127_positive_partial",
    "C127_nan",
    "C127_fraction",
    "C127_flags",
    "C127_same"
   ],
   "note": "Refuted: a NaN weight outside the central region passes all checks, is coadded, and every pixel without positive weight or with a bad flag gets NaN too (C127_nan says so for every stamp). Proved: without NaN all weights are positive and filled as stated (the upper bound for weights up to 2^1000, otherwise the mean of two may overflow to infinity); fraction, flags, and agreement with the exact decision of C52 for finite weights. The pixel values of the image and the noise are not modelled here."
  },
  {
   "property": "C128",
   "status": "partial",
   "theorems": [
    "C128_images_refuted",
    "C128_self_refuted",
    "C128_images_partial",
    "C128_nan",
    "C128_equal",
    "C128_weights_partial",
    "C128_weights_self",
    "C128_exact",
    "C128_shapes"
   ],
   "note": "Refuted: a pixel that is NaN or infinite in either image makes the image check pass whatever the other pixels (C128_nan, for all images); weights that are NaN or infinite are reported, and NaN pixels raise, when a file is compared with itself. Proved: for finite pixels the check agrees with the exact standard deviation up to e (tol + B) + 2^-60 with e = (4 layers + 40) units of rounding and B the largest difference; equal images pass with rms 0; the count of weights is at least the exact count and at most that for a tolerance smaller by three units; exact comparison iff same shape and values. A constant offset between two images is not seen by the image check, as its docstring says."
  },
  {
   "property": "C129",
   "status": "partial",
   "theorems": [
    "C129_zero_based_refuted",
    "C129_wcs_refuted",
    "C129_usual_partial",
    "C129_coarse",
    "C129_near",
    "C129_offset",
    "C129_stored",
    "C129_one_column",
    "C129_shapes",
    "C129_nan"
   ],
   "note": "Refuted: the position 0.1 is lost in both directions with offset 1, (0.1 + 1) - 1 and (0.1 - 1) + 1 differ from 0.1. Proved: wcs positions between 1/2 and 2^32 with offset 0 or 1 come back exactly; multiples of 2^-20 below 2^30 come back exactly in both directions; any positions up to B come back within 8 units of rounding of B and differ by the offset within 4; NaN stays NaN and no other position becomes NaN; one column is used for all rows, other sizes raise ValueError. Strengthens C40, which is over exact numbers."
  },
  {
   "property": "C130",
   "status": "partial",
   "theorems": [
    "C130_exact_refuted",
    "C130_nearest_partial",
    "C130_single",
    "C130_sum",
    "C130_order",
    "C130_too_large",
    "C130_list"
   ],
   "note": "Refuted: a double 0.1 comes back as the f4 nearest to it. Proved: each pixel comes back as the nearest f4 (none nearer, error within 2^-24 of it plus 2^-150), NaN and f4 infinities as they are, f4 values unchanged; the sum is within 2^-24 of the sum of absolute values; the order is kept; writing fails with FitsError exactly when a double is infinite or beyond the largest f4; get_psf_list agrees. The joblib writer is in C139."
  },
  {
   "property": "C131",
   "status": "partial",
   "theorems": [
    "C131_output_partial",
    "C131_output_with_ids_partial",
    "C131_lines_partial",
    "C131_decimal_partial",
    "C131_single_partial",
    "C131_exact_refuted",
    "C131_finite_refuted"
   ],
   "note": "Refuted: sixteen digits do not identify a double (1000 + 2^-43 is printed as 1000), and the text of the largest double reads as infinity. Proved: the number and order of the lines, ids and boxes exact, infinities and NaN kept, positions up to 10^30 read back within 10^-15 of themselves, the printed decimal within 5 10^-16 and exact for positions of sixteen digits or fewer, positions of single precision exact after conversion. The signs of zero and NaN are not modelled."
  },
  {
   "property": "C132",
   "status": "partial",
   "theorems": [
    "C132_box_partial",
    "C132_same_partial",
    "C132_covers_refuted",
    "C132_no_axis_partial"
   ],
   "note": "Refuted: a circular object whose radius is 24 pixels and 10^-15 gets a box of 48 pixels. Proved for 0 <= B_WORLD <= A_WORLD, A_WORLD > 0 and a flux radius up to 10^8: nothing undefined happens, the box is the right one for a flux radius within 2^-49 of the given one, and for the given one itself unless the radius is that close to an integer. With A_WORLD = 0 the conversion to int is undefined whatever the other columns."
  },
  {
   "property": "C133",
   "status": "partial",
   "theorems": [
    "C133_all_types_refuted",
    "C133_left_refuted",
    "C133_extensions_partial",
    "C133_same_partial",
    "C133_left_partial",
    "C133_checks_partial",
    "C133_clobbers_partial",
    "C133_unknown_partial"
   ],
   "note": "Refuted: noise maps are dropped; a file without bit masks makes the extraction raise and leaves a file that opens and validates, in place of the old one. Proved: the list of extensions of a complete output, tables and mosaics as in C47 to C49 whatever other extensions exist, which prefix is left after an exception, and that the old file survives exactly the failures found before the input is open; an unknown number leaves a file with no extension."
  },
  {
   "property": "C134",
   "status": "proved",
   "theorems": [
    "C134_chain",
    "C134_agree",
    "C134_range_works",
    "C134_numbers_work",
    "C134_maker_files"
   ],
   "note": "Noise cutouts are left out since number extraction drops them (C133), copy_all since it copies mosaics unshifted (C44)."
  },
  {
   "property": "C135",
   "status": "proved",
   "theorems": [
    "C135_answers",
    "C135_agree"
   ],
   "note": "Exact arithmetic for the composites as in C25-C33; negative cutout numbers are left out (they reach unused slots)."
  },
  {
   "property": "C136",
   "status": "partial",
   "theorems": [
    "C136_no_column_refuted",
    "C136_numbers_partial",
    "C136_no_column_partial",
    "C136_psfs_partial",
    "C136_jacobians_partial",
    "C136_ubersegs_partial",
    "C136_cutouts_partial"
   ],
   "note": "The lists are proved. The clause on numbers is refuted: without the column get_number returns i+1 and get_cseg_cutout works, but get_cseg_weight raises ValueError always and get_uberseg unless the seg map has exactly two values."
  },
  {
   "property": "C137",
   "status": "partial",
   "theorems": [
    "C137_numbers_refuted",
    "C137_ormask_refuted",
    "C137_range_partial",
    "C137_numbers_partial"
   ],
   "note": "Proved for ranges and all types but ormask, which the extractor does not copy (refuted). Refuted for numbers: extracting a coadd by number raises ValueError, and a result never has an object with a cutout."
  },
  {
   "property": "C138",
   "status": "proved",
   "theorems": [
    "C138_nothing_found",
    "C138_status"
   ],
   "note": "esutil's match gives rows with equal ids; sigma clipping of the means is taken not to raise. Differences of catalog columns (start_row) are only printed by the program and are not part of the statement. No png prefix (C61, C72 say what happens with one). The shared objects must not be none: the program raises then."
  },
  {
   "property": "C139",
   "status": "partial",
   "theorems": [
    "C139_buffer_refuted",
    "C139_random_refuted",
    "C139_same_partial",
    "C139_one_job_partial",
    "C139_memory_partial",
    "C139_cache_partial"
   ],
   "note": "Refuted when get_rec returns a buffer it uses again (a job dumps its images after rendering them all: also below 2000 objects) and when results depend on earlier calls (each group of jobs starts from a copy of the objects; witness with jobs of one object). Proved when neither is the case, and for random numbers with one job or one group; about files made, not about which error is raised. Threads as workers are not modelled; get_rec_shape and get_center do not change the memory."
  },
  {
   "property": "C140",
   "status": "partial",
   "theorems": [
    "C140_lost_refuted",
    "C140_serial_partial",
    "C140_joblib_partial",
    "C140_old_partial",
    "C140_complete_partial"
   ],
   "note": "Refuted for joblib: nothing is written before all jobs are done, so that all PSFs are lost when one object raises, also those of finished jobs. Proved serially in full and for joblib in this weaker form (nothing written when an object raises; everything before an image that does not fit otherwise, for objects that do not return a buffer they use again). Of the image with a number too large for single precision itself nothing is said. One hdu.write is taken to happen completely or not at all; which of several failing jobs joblib reports is taken as the first."
  },
  {
   "property": "C141",
   "status": "partial",
   "theorems": [
    "C141_exact_refuted",
    "C141_order_refuted",
    "C141_text_refuted",
    "C141_text_partial",
    "C141_fields_partial",
    "C141_self_partial",
    "C141_names"
   ],
   "note": "Refuted: a difference below 10^-5 of the number passes (start rows off by 50), the tolerance refers to the second file so that the order of the files matters, and text columns raise TypeError, also for a file compared with itself. Proved for columns of numbers up to that tolerance and rounding (10 units of the coarser type); integers below 2^53, floats below 2^120, integer types of 32 and 64 bits. esutil's sigma_clip is taken not to raise. Broadcasting of a scalar column against one with several elements is modelled but nothing is proved about it."
  },
  {
   "property": "C142",
   "status": "partial",
   "theorems": [
    "C142_singular_refuted",
    "C142_others_refuted",
    "C142_median_partial",
    "C142_common_partial",
    "C142_between_partial",
    "C142_order",
    "C142_exists",
    "C142_no_epochs",
    "C142_no_target_iff",
    "C142_extracted_partial"
   ],
   "note": "Refuted: the medians are taken element by element, so that two epochs turned by 180 degrees give the zero matrix (the seg map of the coadd is then one pixel everywhere), and the target depends on the whole file, so that extracting an object changes its coadd (witness: its seg map). Proved: each element is the median, a Jacobian of more than half of the objects is the target, bounds of the epochs hold for the target, order does not matter, without epochs no target is used, and extraction keeps the coadds when it keeps the target. Exact rationals (the mean of two is not rounded)."
  },
  {
   "property": "C143",
   "status": "partial",
   "theorems": [
    "C143_number_refuted",
    "C143_twice_refuted",
    "C143_from_end_partial",
    "C143_outside_partial",
    "C143_coadder_partial",
    "C143_pixels_partial",
    "C143_rows_partial",
    "C143_written_partial",
    "C143_same_partial"
   ],
   "note": "Refuted: in a file without number column get_number of the k-th object from the end is 1 - k, and a range like [-n, n) names objects twice and runs out of the reserved space (fitsio refuses the write) although every coadd fits. Proved for files with a number column and for ranges that name no object twice (any range for the contents of a file that was written)."
  },
  {
   "property": "C144",
   "status": "partial",
   "theorems": [
    "C144_place_refuted",
    "C144_coadd_refuted",
    "C144_order_partial",
    "C144_writable_partial"
   ],
   "note": "Refuted: the number of a cutout is not kept (cutouts follow the order of the images), and with a coadd (first_image_is_coadd) moved from the first place an object may lose cutouts, as the bounds buffer goes with the place. Proved: the cutouts are the same up to their order whenever a coadd stays first; pixels for the types whose file the source supplies (others: C17)."
  },
  {
   "property": "C145",
   "status": "partial",
   "theorems": [
    "C145_coadd_refuted",
    "C145_cutouts_partial",
    "C145_writable_partial"
   ],
   "note": "Refuted: with a coadd (first_image_is_coadd) left out, the next image takes its place with the bounds buffer and an object can get a cutout that the file of all images has not. Proved whenever a coadd is kept; pixels for the types whose file the source supplies (others: C17)."
  },
  {
   "property": "C146",
   "status": "partial",
   "theorems": [
    "C146_buffer_refuted",
    "C146_frames_partial"
   ],
   "note": "Refuted: an object before the first row or column of the coadd, inside the bounds buffer, has a negative position, which is rounded towards zero and not down; its cutout starts one pixel further and the position inside the cutout differs by one. Proved for positions that are not negative (with position offsets up to 1: all images but the coadd, and objects on the coadd); place, Jacobian and psf for all; exact arithmetic."
  },
  {
   "property": "C147",
   "status": "proved",
   "theorems": [
    "C147_scaled",
    "C147_significance",
    "C147_outcome",
    "C147_masked"
   ],
   "note": "Pixels: for types for which the source has a file; the same psf objects and contents of the reserved psf space; exact arithmetic. ormask and noise cannot be written by the maker (C18). The scale column of image_info differs, of course. Masked weights: for files with weight and seg extensions, and sources with a weight file for the image and a seg file for the coadd."
  },
  {
   "property": "C148",
   "status": "proved",
   "theorems": [
    "C148_net",
    "C148_outcome"
   ],
   "note": "For types for which the source has a file; the same psf objects and contents of the reserved psf space; exact arithmetic (in single precision the order of subtraction and rounding matters, C91)."
  },
  {
   "property": "C149",
   "status": "proved",
   "theorems": [
    "C149_bits",
    "C149_outcome"
   ],
   "note": "The shapes of the masks stay the same; a mask is not added or removed; the same contents of the reserved space; exact integers (C90 for the file's integer type)."
  },
  {
   "property": "C150",
   "status": "proved",
   "theorems": [
    "C150_own",
    "C150_extension",
    "C150_masked"
   ],
   "note": "C150_own: for types for which the source has a file, any reserved space and types; C150_extension: all types, the same types and reserved space. When both files are made (a file that cannot be read stops the run for all types); the same psf objects and contents of the reserved psf space."
  }
 ]
}