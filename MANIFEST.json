{
 "claims": [
  {
   "property": "C01",
   "status": "proved",
   "theorems": [
    "C01_file_roundtrip",
    "C01_typed_roundtrip"
   ],
   "note": "all ten formats, all sixteen versions; output shorter than 2^63 bytes (Rust's allocation limit)"
  },
  {
   "property": "C02",
   "status": "proved",
   "theorems": [
    "C02_save_is_fixpoint"
   ],
   "note": "any accepted byte sequence, including files not produced by the writer"
  },
  {
   "property": "C03",
   "status": "proved",
   "theorems": [
    "C03_file_write_total",
    "C03_typed_write_total"
   ],
   "note": "file and typed entry points"
  },
  {
   "property": "C04",
   "status": "proved",
   "theorems": [
    "C04_objects_disjoint",
    "C04_any_type"
   ],
   "note": "objects are found by following the offsets in the output bytes; also for any described type at any position"
  },
  {
   "property": "C05",
   "status": "proved",
   "theorems": [
    "C05_offsets_forward_and_aligned"
   ],
   "note": "also part of C04_any_type for any described type"
  },
  {
   "property": "C06",
   "status": "proved",
   "theorems": [
    "C06_positions_increase",
    "C06_smallest_position_refuted"
   ],
   "note": "increasing positions with gaps below 8 bytes; the stronger claim that each position is the smallest possible is refuted by C06_smallest_position_refuted (empty arrays round the next free position)"
  },
  {
   "property": "C07",
   "status": "proved",
   "theorems": [
    "C07_null",
    "C07_nonnull"
   ],
   "note": "relative and absolute pointers, unions, arrays, byte buffers"
  },
  {
   "property": "C08",
   "status": "proved",
   "theorems": [
    "C08_read_consumes_inline_size"
   ],
   "note": ""
  },
  {
   "property": "C09",
   "status": "proved",
   "theorems": [
    "C09_reader_implements_format",
    "C09_file_reader_implements_format",
    "C09_formats_covered"
   ],
   "note": "soundness and completeness with respect to the positional relation Dec of SsbhSpec.v and DecFile of FileSpec.v"
  },
  {
   "property": "C10",
   "status": "proved",
   "theorems": [
    "C10_overflow_rejected",
    "C10_read_no_panic"
   ],
   "note": "every reader of a relative offset; reading never panics"
  },
  {
   "property": "C11",
   "status": "proved",
   "theorems": [
    "C11_trailing_data",
    "C11_truncation"
   ],
   "note": ""
  },
  {
   "property": "C12",
   "status": "proved",
   "theorems": [
    "C12_utf8",
    "C12_text_cut_at_nul",
    "C12_string_roundtrip",
    "C12_missing_terminator",
    "C12_string_size"
   ],
   "note": ""
  },
  {
   "property": "C13",
   "status": "proved",
   "theorems": [
    "C13_union_read",
    "C13_union_unknown_tag",
    "C13_union_write"
   ],
   "note": ""
  },
  {
   "property": "C14",
   "status": "proved",
   "theorems": [
    "C14_enumeration_read",
    "C14_enumeration_write"
   ],
   "note": ""
  },
  {
   "property": "C15",
   "status": "proved",
   "theorems": [
    "C15_not_ssbh",
    "C15_header",
    "C15_dispatch",
    "C15_unknown_type",
    "C15_unknown_version",
    "C15_supported"
   ],
   "note": ""
  },
  {
   "property": "C16",
   "status": "proved",
   "theorems": [
    "C16_meshex_roundtrip",
    "C16_meshex_errors"
   ],
   "note": "fewer than 2^32 groups, entries and flags (the count fields are 32 bits wide and the code truncates)"
  },
  {
   "property": "C17",
   "status": "proved",
   "theorems": [
    "C17_adj_roundtrip"
   ],
   "note": "fewer than 2^32 entries"
  },
  {
   "property": "C18",
   "status": "proved",
   "theorems": [
    "C18_end_alignment"
   ],
   "note": ""
  },
  {
   "property": "C19",
   "status": "proved",
   "theorems": [
    "C19_size_exact",
    "C19_size_inline"
   ],
   "note": ""
  },
  {
   "property": "C20",
   "status": "proved",
   "theorems": [
    "C20_narrow_pointer_exact"
   ],
   "note": ""
  },
  {
   "property": "C21",
   "status": "proved",
   "theorems": [
    "C21_destination_kept_refuted",
    "C21_save_path"
   ],
   "note": "the destination holds the whole document or is unchanged or empty; C21_destination_kept_refuted shows that a failed save empties an existing destination"
  },
  {
   "property": "C22",
   "status": "proved",
   "theorems": [
    "C22_bit_stream_roundtrip"
   ],
   "note": "widths 1 to 32; also the position of every bit and the number of bytes"
  },
  {
   "property": "C23",
   "status": "proved",
   "theorems": [
    "C23_bit_reads_bounded"
   ],
   "note": "also the bits returned"
  },
  {
   "property": "C24",
   "status": "proved",
   "theorems": [
    "C24_track_layout",
    "C24_large_buffer_refuted"
   ],
   "note": "buffers below 4 GiB; refuted for larger ones (data_offset is truncated to u32)"
  },
  {
   "property": "C25",
   "status": "proved",
   "theorems": [
    "C25_track_range_checked",
    "C25_only_own_bytes"
   ],
   "note": "also: the result depends on the bytes of the range only"
  },
  {
   "property": "C26",
   "status": "proved",
   "theorems": [
    "C26_uncompressed_roundtrip"
   ],
   "note": "all six types, any bit pattern"
  },
  {
   "property": "C27",
   "status": "proved",
   "theorems": [
    "C27_booleans_and_indices_lossless",
    "C27_wide_range_refuted"
   ],
   "note": "the condition on the range is necessary (refutation beside it)"
  },
  {
   "property": "C28",
   "status": "proved",
   "theorems": [
    "C28_bit_accounting",
    "C28_other_bit_counts_rejected"
   ],
   "note": "also the positions in the header"
  },
  {
   "property": "C29",
   "status": "partial",
   "theorems": [
    "C29_error_bound_partial",
    "C29_one_step_refuted"
   ],
   "note": "false as stated: with 24 bits the error can exceed one step plus the rounding of the result (C29_one_step_refuted, about 3 steps); proved: the code fits, the value stays inside the range, and the error is at most 1 + 5*(2^bits-1)/2^24 steps plus max(|min|,|max|)*2^-23 + 2^-150. Uses the stdlib Reals axioms."
  },
  {
   "property": "C30",
   "status": "partial",
   "theorems": [
    "C30_frame_count_partial",
    "C30_constant_tracks",
    "C30_frame_count_refuted"
   ],
   "note": "false as stated: a constant float, vector or UV track of n frames is read back as one frame (C30_frame_count_refuted); proved for every track with at least one bit per frame, with the exact count otherwise"
  },
  {
   "property": "C31",
   "status": "proved",
   "theorems": [
    "C31_interleaved"
   ],
   "note": "any attribute list, any content and cursor before; other bytes are kept"
  },
  {
   "property": "C32",
   "status": "proved",
   "theorems": [
    "C32_ranges",
    "C32_indices"
   ],
   "note": "buffers below 4 GiB (offsets are stored with 32 bits)"
  },
  {
   "property": "C33",
   "status": "proved",
   "theorems": [
    "C33_valid_iff",
    "C33_errors"
   ],
   "note": "both directions, and each error names a condition that holds"
  },
  {
   "property": "C34",
   "status": "proved",
   "theorems": [
    "C34_index_width"
   ],
   "note": "any index list at any place in the index buffer"
  },
  {
   "property": "C35",
   "status": "proved",
   "theorems": [
    "C35_weights",
    "C35_max_influences",
    "C35_groups_sorted",
    "C35_lookup",
    "C35_stored_count_refuted"
   ],
   "note": "the stored influence count is a byte; C35_stored_count_refuted shows it wrong for 256 bones"
  },
  {
   "property": "C36",
   "status": "proved",
   "theorems": [
    "C36_adj_save_load",
    "C36_adj_slices",
    "C36_large_refuted"
   ],
   "note": "refuted for index buffers of 4 GiB, whose offsets are truncated"
  },
  {
   "property": "C37",
   "status": "proved",
   "theorems": [
    "C37_triangle_adjacency"
   ],
   "note": "for any comparison of positions and any indices (stored modulo 2^16); indices of a triangle out of range panic"
  },
  {
   "property": "C38",
   "status": "proved",
   "theorems": [
    "C38_world_terminates",
    "C38_world_result",
    "C38_skel_worlds"
   ],
   "note": "termination for every parent graph, the result, and the matrices stored in the file; the matrix product and inverse are arbitrary functions"
  },
  {
   "property": "C39",
   "status": "proved",
   "theorems": [
    "C39_skel_save_load",
    "C39_skel_write_result",
    "C39_parent_index_refuted"
   ],
   "note": "refuted for parent indices from 32768 on, which are truncated; the matrix product and inverse are any functions yielding 32 bit patterns"
  },
  {
   "property": "C40",
   "status": "proved",
   "theorems": [
    "C40_matl_save_load",
    "C40_matl_write_result",
    "C40_matl_params",
    "C40_entry15",
    "C40_v15_refuted"
   ],
   "note": "Enums are numbers, f32 bit patterns. Version 1.5 files load but the data cannot be saved (C40_v15_refuted), although the documentation lists 1.5 as supported."
  },
  {
   "property": "C41",
   "status": "proved",
   "theorems": [
    "C41_hlpb_save_load",
    "C41_hlpb_write_total",
    "C41_hlpb_lists"
   ],
   "note": "fewer than 2^32 constraints of each kind; text is UTF-8 without NUL; the version becomes 1.1"
  },
  {
   "property": "C42",
   "status": "proved",
   "theorems": [
    "C42_modl_save_load",
    "C42_modl_write_total",
    "C42_nul_refuted"
   ],
   "note": "the version becomes 1.7; refuted for text containing NUL, which is cut there"
  },
  {
   "property": "C43",
   "status": "proved",
   "theorems": [
    "C43_meshex_save_load",
    "C43_meshex_write_total",
    "C43_meshex_groups",
    "C43_from_mesh_objects",
    "C43_name_tags"
   ],
   "note": "for any sphere around all groups (computed by another crate); also grouping of mesh objects and name tags"
  },
  {
   "property": "C44",
   "status": "proved",
   "theorems": [
    "C44_colour_roundtrip"
   ],
   "note": "all 256 bytes, through correctly rounded f32 arithmetic (SpecFloat)"
  },
  {
   "property": "C45",
   "status": "proved",
   "theorems": [
    "C45_half_roundtrip"
   ],
   "note": "all 65536 patterns except NaN, including subnormals and infinities"
  },
  {
   "property": "C46",
   "status": "proved",
   "theorems": [
    "C46_meshex_layout",
    "C46_meshex_objects"
   ],
   "note": "reader characterised by the positional relation DecMeshEx; placement of every object of a written file"
  },
  {
   "property": "C47",
   "status": "proved",
   "theorems": [
    "C47_adj_write_layout",
    "C47_adj_read_layout"
   ],
   "note": "writer output and the set of accepted files given exactly"
  },
  {
   "property": "C48",
   "status": "proved",
   "theorems": [
    "C48_anim_save_load"
   ],
   "note": "loading version 1.2 is the subject of C64; names are UTF-8 without NUL (any text: C86)"
  },
  {
   "property": "C49",
   "status": "proved",
   "theorems": [
    "C49_anim_write_errors"
   ],
   "note": ""
  },
  {
   "property": "C50",
   "status": "partial",
   "theorems": [
    "C50_truncated_transform_refuted",
    "C50_index_overflow_refuted",
    "C50_track_panics"
   ],
   "note": "false as stated: truncated transform tracks and pattern index tracks with a large minimum panic (refutations); proved exactly which data panics: compressed transforms whose bits end just before the sign of a frame, and compressed indices that do not fit 32 bits"
  },
  {
   "property": "C51",
   "status": "proved",
   "theorems": [
    "C51_relative_refuted",
    "C51_relative_other_side"
   ],
   "note": "exact integer matrices; the expected order P * R = W is refuted, a defect of the code"
  },
  {
   "property": "C52",
   "status": "proved",
   "theorems": [
    "C52_anim_reload",
    "C52_mesh_reload",
    "C52_modl_reload",
    "C52_hlpb_reload",
    "C52_skel_reload",
    "C52_matl_reload",
    "C52_meshex_reload",
    "C52_adj_reload",
    "C52_conversions_total",
    "C52_mesh_reload_file"
   ],
   "note": "Hlpb needs fewer than 2^32 constraints of each kind (the counts are u32). MeshEx may report that a pointer does not fit. Meshes need buffers below 4 GiB and lists of bounded length, animations a track buffer below 4 GiB (C24)."
  },
  {
   "property": "C53",
   "status": "proved",
   "theorems": [
    "C53_mesh_save_load",
    "C53_write_result"
   ],
   "note": "the bounding computation (geometry_tools) is an arbitrary function"
  },
  {
   "property": "C54",
   "status": "proved",
   "theorems": [
    "C54_resave",
    "C54_v8_refuted"
   ],
   "note": "byte identical; C54_v8_refuted shows the condition on 1.8 is needed"
  },
  {
   "property": "C55",
   "status": "proved",
   "theorems": [
    "C55_track_error"
   ],
   "note": "all track types; w components of rotations are the subject of C58. Uses the stdlib Reals axioms."
  },
  {
   "property": "C56",
   "status": "proved",
   "theorems": [
    "C56_half_nearest",
    "C56_half_exact",
    "C56_half_overflow",
    "C56_special",
    "C56_colour_nearest",
    "C56_colour_monotone",
    "C56_byte_nearest",
    "C56_colour_back"
   ],
   "note": "the conversions of the half crate are modelled as IEEE 754 conversions. Uses the stdlib Reals axioms."
  },
  {
   "property": "C57",
   "status": "proved",
   "theorems": [
    "C57_skel_file",
    "C57_matl_file",
    "C57_mesh_file"
   ],
   "note": "stated on what the low level reader gets from the saved bytes; the product and inverse of matrices and the bounding computation are arbitrary functions"
  },
  {
   "property": "C58",
   "status": "proved",
   "theorems": [
    "C58_rotation_w",
    "C58_rotation_track"
   ],
   "note": "the bound on the quaternion is stated in squares, since w is recovered by a square root. Uses the stdlib Reals axioms."
  },
  {
   "property": "C59",
   "status": "proved",
   "theorems": [
    "C59_metadata",
    "C59_names"
   ],
   "note": ""
  },
  {
   "property": "C60",
   "status": "proved",
   "theorems": [
    "C60_outcome",
    "C60_no_panic_refuted"
   ],
   "note": "the exact outcome is proved; that malformed shaders never panic is refuted"
  },
  {
   "property": "C61",
   "status": "proved",
   "theorems": [
    "C61_shdr_file",
    "C61_errors_refuted"
   ],
   "note": "the exact outcome is proved; that failures are errors is refuted"
  },
  {
   "property": "C62",
   "status": "proved",
   "theorems": [
    "C62_track_data"
   ],
   "note": "for every byte string and writer, by positions; decompress_f32 and rotation_w are the subjects of C29 and C58"
  },
  {
   "property": "C63",
   "status": "proved",
   "theorems": [
    "C63_anim_file"
   ],
   "note": "complete outcome: Ok exactly for loaded_anim, Panic exactly if the first unreadable track panics, Err otherwise"
  },
  {
   "property": "C64",
   "status": "proved",
   "theorems": [
    "C64_anim_file_v12",
    "C64_not_saved",
    "C64_errors_refuted",
    "C64_few_keys_refuted"
   ],
   "note": "for every order of the HashMap; never an error, so every problem is a panic (refutations)"
  },
  {
   "property": "C65",
   "status": "proved",
   "theorems": [
    "C65_mesh_file",
    "C65_names",
    "C65_names_distinct"
   ],
   "note": "complete outcome: Ok exactly for loaded_object, Err otherwise, never Panic; positions, for every writer"
  },
  {
   "property": "C66",
   "status": "proved",
   "theorems": [
    "C66_lossless",
    "C66_resave_error",
    "C66_drift_refuted"
   ],
   "note": "same bytes for lossless tracks; for finite values the error after n saves is at most n times that of C55; C66_drift_refuted shows it does grow (100 saves, 13 times the bound). Uses the stdlib Reals axioms."
  },
  {
   "property": "C67",
   "status": "proved",
   "theorems": [
    "C67_points",
    "C67_vectors",
    "C67_translation",
    "C67_identity",
    "C67_identity_bits_refuted",
    "C67_infinite_refuted",
    "C67_infinite_translation_refuted"
   ],
   "note": "glam's Mat4::mul_vec4 is modelled as the sum of the scaled columns from left to right, without fused multiplication. Bit patterns are not kept by the identity, infinite coordinates and translations give NaN (refuted). Uses the stdlib Reals axioms."
  },
  {
   "property": "C68",
   "status": "proved",
   "theorems": [
    "C68_document_iff",
    "C68_document_finite",
    "C68_adj_document",
    "C68_integers",
    "C68_every_document_refuted",
    "C68_losses_refuted"
   ],
   "note": "serde's, serde_json's and hex's behaviour is trusted, documents are trees, not text; losses for every document are refuted by witnesses"
  },
  {
   "property": "C69",
   "status": "proved",
   "theorems": [
    "C69_order",
    "C69_unknown_member",
    "C69_missing_member",
    "C69_repeated_member"
   ],
   "note": "for the structs of every format; the order at every depth of the document"
  },
  {
   "property": "C70",
   "status": "proved",
   "theorems": [
    "C70_accepted_ok",
    "C70_accepted_saved",
    "C70_zero_character_refuted"
   ],
   "note": "false for strings with zero characters (C70_zero_character_refuted); the MeshEx error EPtrRange needs more than 2^64 bytes; lengths below 2^32 where the format stores them in 32 bits"
  },
  {
   "property": "C71",
   "status": "proved",
   "theorems": [
    "C71_same_as_library",
    "C71_identity",
    "C71_save_load",
    "C71_nufx_extension_refuted"
   ],
   "note": "composes C68 with the round trips of C01, C16 and C17; the extension written for Nufx is not the one the other tools use (refuted)"
  },
  {
   "property": "C72",
   "status": "proved",
   "theorems": [
    "C72_data_iff",
    "C72_not_finite",
    "C72_layout"
   ],
   "note": "documents are trees, not text; serde's behaviour is trusted; the layout is stated separately, member by member"
  },
  {
   "property": "C73",
   "status": "proved",
   "theorems": [
    "C73_same_as_library",
    "C73_extensions",
    "C73_back_and_forth",
    "C73_loaded_typed"
   ],
   "note": "glam, geometry_tools and the order of the hash map in animations of version 1.2 are arbitrary functions; composes the reload theorems of C52"
  },
  {
   "property": "C74",
   "status": "proved",
   "theorems": [
    "C74_accepted",
    "C74_outcome",
    "C74_order"
   ],
   "note": "documents with UTF-8 strings and 32 bit floats"
  },
  {
   "property": "C75",
   "status": "proved",
   "theorems": [
    "C75_sampler",
    "C75_blend",
    "C75_uv_transforms",
    "C75_raster_refuted"
   ],
   "note": "RasterizerStateData has a Default in Rust but its members may not be left out (refuted)"
  },
  {
   "property": "C76",
   "status": "proved",
   "theorems": [
    "C76_other_types",
    "C76_any_order",
    "C76_handwritten_refuted"
   ],
   "note": "false for documents written by hand as arrays (refuted)"
  },
  {
   "property": "C77",
   "status": "proved",
   "theorems": [
    "C77_same_result",
    "C77_work",
    "C77_reservations",
    "C77_files",
    "C77_meshex",
    "C77_adj",
    "C77_linear_refuted",
    "C77_empty_elements",
    "C77_formats_sane"
   ],
   "note": "an instrumented reader proved to return the same results; a linear bound is false (refuted)"
  },
  {
   "property": "C78",
   "status": "proved",
   "theorems": [
    "C78_values",
    "C78_animations",
    "C78_tracks",
    "C78_meshes",
    "C78_adjacency"
   ],
   "note": "from the positions of C62, C63 and C65; also frees C52_mesh_reload_file of its condition on lists"
  },
  {
   "property": "C79",
   "status": "proved",
   "theorems": [
    "C79_emitted_code_refines",
    "C79_formats_from_source",
    "C79_others_from_source",
    "C79_source_saves",
    "C79_accepts",
    "C79_repository_accepted",
    "C79_size_is_honest",
    "C79_repository_counts",
    "C79_magic_of_tuple_refuted",
    "C79_magic_of_enum_refuted",
    "C79_padding_of_repr_refuted",
    "C79_alignment_of_field_refuted",
    "C79_repr_beside_other_arguments",
    "C79_unreadable_arguments"
   ],
   "note": "four combinations of attributes that no item uses break the agreement of size and bytes (refuted)"
  },
  {
   "property": "C80",
   "status": "proved",
   "theorems": [
    "C80_check_ssbh",
    "C80_check_adj",
    "C80_check_meshex",
    "C80_check_meshex_small",
    "C80_check_no_panic_refuted",
    "C80_fuzz_versioned",
    "C80_versioned_roundtrip",
    "C80_fuzz_adj",
    "C80_fuzz_meshex",
    "C80_fuzz_meshex_refuted",
    "C80_fuzz_readers"
   ],
   "note": "that ssbh_test and the fuzz target never panic is refuted for MeshEx; the exact conditions are proved"
  },
  {
   "property": "C81",
   "status": "proved",
   "theorems": [
    "C81_at_most",
    "C81_at_least",
    "C81_roundtrip",
    "C81_meshex_at_most",
    "C81_meshex_written",
    "C81_meshex_loaded"
   ],
   "note": ""
  },
  {
   "property": "C82",
   "status": "proved",
   "theorems": [
    "C82_saved_size",
    "C82_modl_bound",
    "C82_reload",
    "C82_modl",
    "C82_hlpb",
    "C82_skel",
    "C82_matl",
    "C82_meshex"
   ],
   "note": "the limits are sufficient; a document of a longer file is saved if its saved form is below 2^63 bytes (C02, C81)"
  },
  {
   "property": "C83",
   "status": "proved",
   "theorems": [
    "C83_modl_converts",
    "C83_hlpb_converts",
    "C83_skel_converts",
    "C83_matl_converts",
    "C83_targets_to_data",
    "C83_anim_to_data_refuted",
    "C83_anim_to_data",
    "C83_anim_v12_to_data",
    "C83_skel_saves",
    "C83_anim_saves",
    "C83_mesh_saves",
    "C83_targets_from_data"
   ],
   "note": "that no target panics is refuted for anim_to_data; the exact condition is proved"
  },
  {
   "property": "C84",
   "status": "proved",
   "theorems": [
    "C84_vectors_convert",
    "C84_vectors_extremes",
    "C84_identity",
    "C84_bounding_ok",
    "C84_mesh_boxes",
    "C84_aabb_exists",
    "C84_inside_refuted",
    "C84_finite_refuted"
   ],
   "note": "that the oriented box contains the points exactly, and that it is always finite, are refuted; calculate_aabb_from_points of geometry_tools is assumed to give extreme coordinates"
  },
  {
   "property": "C85",
   "status": "proved",
   "theorems": [
    "C85_modl",
    "C85_hlpb",
    "C85_skel",
    "C85_matl",
    "C85_meshex",
    "C85_adj",
    "C85_anim",
    "C85_mesh"
   ],
   "note": "groups of animations of version 1.2 are those of C64; influences of objects whose name is shown as the empty text are left open, values of weights of version 1.10 and of frames and vertices are those of C62, C63 and C65"
  },
  {
   "property": "C86",
   "status": "proved",
   "theorems": [
    "C86_cut",
    "C86_kept",
    "C86_document",
    "C86_distinct",
    "C86_unsaved",
    "C86_idempotent",
    "C86_merged_refuted"
   ],
   "note": "C86_merged_refuted: the influences of mesh objects with equal kept names are merged"
  },
  {
   "property": "C87",
   "status": "proved",
   "theorems": [
    "C87_outcome",
    "C87_saved",
    "C87_fault",
    "C87_document",
    "C87_skel_again",
    "C87_skel_again_refuted"
   ],
   "note": "that a loaded skeleton can always be saved again is refuted (C87_skel_again_refuted)"
  },
  {
   "property": "C88",
   "status": "proved",
   "theorems": [
    "C88_file_determines_data",
    "C88_data_determines_file",
    "C88_equal",
    "C88_parents_refuted"
   ],
   "note": "without the bound on parents refuted (C88_parents_refuted)"
  },
  {
   "property": "C89",
   "status": "proved",
   "theorems": [
    "C89_saved_again",
    "C89_document",
    "C89_same",
    "C89_large_refuted"
   ],
   "note": "false for meshes whose numbers overflow half floats (C89_large_refuted)"
  },
  {
   "property": "C90",
   "status": "proved",
   "theorems": [
    "C90_choice",
    "C90_sizes",
    "C90_bounds",
    "C90_saves",
    "C90_saves_refuted"
   ],
   "note": "that compressing saves space whenever it is chosen is refuted for every type (C90_saves_refuted)"
  },
  {
   "property": "C91",
   "status": "proved",
   "theorems": [
    "C91_conversions",
    "C91_order",
    "C91_back",
    "C91_next",
    "C91_lossless_refuted"
   ],
   "note": "lossless conversion in general is refuted (C91_lossless_refuted)"
  },
  {
   "property": "C92",
   "status": "proved",
   "theorems": [
    "C92_files",
    "C92_others",
    "C92_data",
    "C92_roundtrip",
    "C92_repository",
    "C92_null_refuted"
   ],
   "note": "unconditional round trip of derived forms is refuted (C92_null_refuted)"
  },
  {
   "property": "C93",
   "status": "proved",
   "theorems": [
    "C93_types",
    "C93_files",
    "C93_others",
    "C93_roundtrip",
    "C93_type_roundtrip",
    "C93_one_sided_refuted"
   ],
   "note": "shown for declarations whose br attributes are magic, align_before, repr, pad_after and temp and agree with those of SsbhWrite; without agreement values do not come back (C93_one_sided_refuted)"
  },
  {
   "property": "C94",
   "status": "proved",
   "theorems": [
    "C94_grammar",
    "C94_unique",
    "C94_read_ok",
    "C94_integers",
    "C94_numbers",
    "C94_hex",
    "C94_unicode",
    "C94_floats",
    "C94_shortest",
    "C94_written",
    "C94_roundtrip",
    "C94_deep_refuted",
    "C94_documents",
    "C94_lib_identity",
    "C94_data_library",
    "C94_any_text",
    "C94_large_refuted"
   ],
   "note": "infinite and NaN floats are null in documents (finite_data excludes them); C94_floats is proved by error bounds, a search for the decimals close to a number halfway between floats, and the computation of these"
  },
  {
   "property": "C95",
   "status": "proved",
   "theorems": [
    "C95_extension",
    "C95_lib",
    "C95_data",
    "C95_input_kept",
    "C95_data_input_kept",
    "C95_given",
    "C95_data_given",
    "C95_same_file_refuted",
    "C95_no_extension_refuted"
   ],
   "note": "different strings may name the same file, which the model does not know; a panic while saving can leave the output file empty (C21)"
  }
 ]
}