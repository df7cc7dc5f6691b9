{
 "claims": [
  {
   "property": "C01",
   "status": "proved",
   "theorems": [
    "C01_wz_int_roundtrip",
    "C01_wz_int64_roundtrip"
   ],
   "note": "all i32/i64 values in any buffer"
  },
  {
   "property": "C02",
   "status": "proved",
   "theorems": [
    "C02_read_unsigned",
    "C02_read_signed",
    "C02_cursor"
   ],
   "note": "all widths; error iff the field is not inside the buffer"
  },
  {
   "property": "C03",
   "status": "proved",
   "theorems": [
    "C03_offset_string_cursor"
   ],
   "note": "both eager and deferred forms; also says which position the text is read from"
  },
  {
   "property": "C04",
   "status": "proved",
   "theorems": [
    "C04_lazy_string",
    "C04_lazy_string_block"
   ],
   "note": "buffers below 2 GiB (an i32 length cannot overflow the cursor)"
  },
  {
   "property": "C05",
   "status": "proved",
   "theorems": [
    "C05_string_roundtrip_bmp"
   ],
   "note": "AES is an arbitrary length-preserving block function"
  },
  {
   "property": "C06",
   "status": "proved",
   "theorems": [
    "C06_keystream_history_independent",
    "C06_growth"
   ],
   "note": "all histories of ensure/decrypt/at"
  },
  {
   "property": "C07",
   "status": "proved",
   "theorems": [
    "C07_ecb_involution",
    "C07_ecb_zero_iv_identity",
    "C07_pkg2_involution",
    "C07_split"
   ],
   "note": ""
  },
  {
   "property": "C08",
   "status": "proved",
   "theorems": [
    "C08_offset_bijection",
    "C08_classic_formula",
    "C08_pkg2_formula"
   ],
   "note": "All five calculators (Model/Offset.v). Bijection by explicit inverse; in addition each scheme is shown equal to an independent formula with mod/rotation given by bit positions."
  },
  {
   "property": "C09",
   "status": "proved",
   "theorems": [
    "C09_guess_exact",
    "C09_guess_complete",
    "C09_explicit"
   ],
   "note": "Version hash, checker, scan and candidate selection (Model/VersionPkg1.v). Decimal notation and folding are specified independently."
  },
  {
   "property": "C10",
   "status": "partial",
   "theorems": [
    "C10_scan_770_780_refuted",
    "C10_scan_only_770"
   ],
   "note": "refuted: without a version field only 770 of 770..780 is ever tried with a usable hash."
  },
  {
   "property": "C11",
   "status": "proved",
   "theorems": [
    "C11_v1_unique",
    "C11_v6_unique"
   ],
   "note": "Rotation specified by bit positions."
  },
  {
   "property": "C12",
   "status": "proved",
   "theorems": [
    "C12_bit_search_sound"
   ],
   "note": "Soundness of the pruned recursion; corollary of the exact characterisation."
  },
  {
   "property": "C13",
   "status": "partial",
   "theorems": [
    "C13_bit_search_complete_refuted"
   ],
   "note": "refuted: hashes divisible by 32 (V2), or with low bits 0 when h1's low bits are 0 (V3), are lost; exact set in C56."
  },
  {
   "property": "C14",
   "status": "proved",
   "theorems": [
    "C14_brute_force_exact"
   ],
   "note": "Filter over the range 0..2^32-2."
  },
  {
   "property": "C15",
   "status": "partial",
   "theorems": [
    "C15_chain_complete_refuted"
   ],
   "note": "refuted: a scheme without candidates ends the loop (h1 = h2 = 0: nothing is tried although V1 has a solution)."
  },
  {
   "property": "C16",
   "status": "proved",
   "theorems": [
    "C16_header_total",
    "C16_header_sound",
    "C16_header_complete"
   ],
   "note": "All four header layouts (Model/Header.v) on arbitrary bytes."
  },
  {
   "property": "C17",
   "status": "proved",
   "theorems": [
    "C17_extended_property_framed"
   ],
   "note": "Any bytes, any list that parses: the entry behind an extended property is read from where the stored size says. Buffers shorter than 2^31 bytes."
  },
  {
   "property": "C18",
   "status": "proved",
   "theorems": [
    "C18_layout_parsed",
    "C18_image_roundtrip"
   ],
   "note": "C18_layout_parsed is stated on a layout relation (all entry kinds, references included), C18_image_roundtrip on a serialiser. Fuel is existential but every larger fuel gives the same result. Buffers shorter than 2^31 bytes."
  },
  {
   "property": "C19",
   "status": "proved",
   "theorems": [
    "C19_direct_access_agrees"
   ],
   "note": "For arbitrary bytes (not only serialised trees). `follows` asks for unique names and no null entry named by a number on the lists walked (see C42, C43 for what happens otherwise)."
  },
  {
   "property": "C20",
   "status": "partial",
   "theorems": [
    "C20_missing_component_refuted"
   ],
   "note": "refuted: a missing component that is not the last one makes get_node continue with the bytes behind the list. The true part is C64."
  },
  {
   "property": "C21",
   "status": "partial",
   "theorems": [
    "C21_parsing_returns_refuted",
    "C21_endless_recursion_refuted"
   ],
   "note": "refuted: a negative count panics in with_capacity; a string with negative length moves the cursor backwards and a 40-byte image is parsed forever. The true part is C62."
  },
  {
   "property": "C22",
   "status": "proved",
   "theorems": [
    "C22_directory_roundtrip",
    "C22_open_with_version"
   ],
   "note": "Layout relation Spec/DirWire.v (classic), written without the reader; the resulting nodes are compared with Spec/DirView.v."
  },
  {
   "property": "C23",
   "status": "partial",
   "theorems": [
    "C23_cyclic_directory_refuted",
    "C23_pkg2_listing_refuted"
   ],
   "note": "refuted: a 10-byte directory that lists itself recurses for every amount of fuel; an 8-byte package-2 listing with a negative name length loops for ever, growing the entry list."
  },
  {
   "property": "C24",
   "status": "partial",
   "theorems": [
    "C24_reparse_directory_refuted",
    "C24_reparse_loses_children"
   ],
   "note": "refuted for directory nodes: after parse and unparse, the second parse succeeds with no children (for every file). File and image nodes re-read from the buffer (parse_pkg1 and image_children are functions of the buffer)."
  },
  {
   "property": "C25",
   "status": "proved",
   "theorems": [
    "C25_path_leads_back",
    "C25_full_path",
    "C25_full_paths_differ"
   ],
   "note": "For every node hanging below a root by a path of slash-free names; fuel only has to reach the depth."
  },
  {
   "property": "C26",
   "status": "proved",
   "theorems": [
    "C26_climb",
    "C26_climb_and_descend",
    "C26_beyond_root"
   ],
   "note": "For every node below an ancestor, every number of climbs."
  },
  {
   "property": "C27",
   "status": "proved",
   "theorems": [
    "C27_transfer"
   ],
   "note": "For all finite trees without sharing; locks held by the caller and the recursion are modelled."
  },
  {
   "property": "C28",
   "status": "proved",
   "theorems": [
    "C28_walk",
    "C28_images_released"
   ],
   "note": "The second theorem assumes that reading an image only adds nodes; the visitor does not change the tree."
  },
  {
   "property": "C29",
   "status": "proved",
   "theorems": [
    "C29_resolved_path",
    "C29_no_dots"
   ],
   "note": "The two false halves of the documented behaviour are C81 and C82."
  },
  {
   "property": "C30",
   "status": "proved",
   "theorems": [
    "C30_link_replaced",
    "C30_link_missing",
    "C30_only_links"
   ],
   "note": "One thread; the write lock of the image being parsed is modelled."
  },
  {
   "property": "C31",
   "status": "proved",
   "theorems": [
    "C31_image_by_name",
    "C31_image_on_way",
    "C31_no_image"
   ],
   "note": "The paths left out are those of C86."
  },
  {
   "property": "C32",
   "status": "proved",
   "theorems": [
    "C32_pixels",
    "C32_widening",
    "C32_lossless"
   ],
   "note": "Through extract_png from the stored data in any storage form; the decompressor is an arbitrary function."
  },
  {
   "property": "C33",
   "status": "proved",
   "theorems": [
    "C33_own_block"
   ],
   "note": "With the feature rayon; for the rest see C92, C93, C103."
  },
  {
   "property": "C34",
   "status": "proved",
   "theorems": [
    "C34_squares"
   ],
   "note": "Both sizes multiples of 16; see C95."
  },
  {
   "property": "C35",
   "status": "proved",
   "theorems": [
    "C35_any_form"
   ],
   "note": ""
  },
  {
   "property": "C36",
   "status": "proved",
   "theorems": [
    "C36_wav",
    "C36_shown"
   ],
   "note": "C36_shown covers every sound node that parsing can give."
  },
  {
   "property": "C37",
   "status": "partial",
   "theorems": [
    "C37_straddle_refuted",
    "C37_short"
   ],
   "note": "refuted with real AES-256 and the real key: a character across byte 64; proved for scripts of at most 64 bytes (C37_short), and in general in C108, C109."
  },
  {
   "property": "C38",
   "status": "proved",
   "theorems": [
    "C38_inverse",
    "C38_continues",
    "C38_total"
   ],
   "note": "the key stream is specified as SNOW 2.0 with IV 0 and sign-extended key bytes (Spec/Snow2.v, checked against published test vectors)"
  },
  {
   "property": "C39",
   "status": "proved",
   "theorems": [
    "C39_pieces"
   ],
   "note": "odd lengths: see C117, C118"
  },
  {
   "property": "C40",
   "status": "proved",
   "theorems": [
    "C40_pieces"
   ],
   "note": "for every block function of 64-byte blocks; shown of the RFC 8439 one (chacha64)"
  },
  {
   "property": "C41",
   "status": "proved",
   "theorems": [
    "C41_placed"
   ],
   "note": "version 2: C128"
  },
  {
   "property": "C42",
   "status": "partial",
   "theorems": [
    "C42_unknown_keeps_name_refuted"
   ],
   "note": "refuted: an unknown type of a convex item makes the convex itself appear as a null node under the item's number. The true part is C65."
  },
  {
   "property": "C43",
   "status": "partial",
   "theorems": [
    "C43_duplicates_refuted"
   ],
   "note": "refuted: the map keeps the last property of a name, direct access returns the first."
  },
  {
   "property": "C44",
   "status": "proved",
   "theorems": [
    "C44_pkg2_dir_roundtrip_bmp"
   ],
   "note": ""
  },
  {
   "property": "C45",
   "status": "proved",
   "theorems": [
    "C45_image"
   ],
   "note": ""
  },
  {
   "property": "C46",
   "status": "proved",
   "theorems": [
    "C46_size",
    "C46_announced"
   ],
   "note": "Sizes whose byte count fits 32 bits; format 3 is C99."
  },
  {
   "property": "C47",
   "status": "partial",
   "theorems": [
    "C47_set_iv_fresh_stream_refuted"
   ],
   "note": "refuted: set_iv keeps the key bytes already produced from the old IV"
  },
  {
   "property": "C48",
   "status": "partial",
   "theorems": [
    "C48_key_at_total_refuted"
   ],
   "note": "refuted: at() panics for the zero IV; for other IVs it holds (C06_keystream_history_independent)"
  },
  {
   "property": "C49",
   "status": "partial",
   "theorems": [
    "C49_string_roundtrip_unicode_refuted",
    "C49_pkg2_dir_unicode_refuted"
   ],
   "note": "refuted: characters above U+FFFF are counted once but take two code units"
  },
  {
   "property": "C50",
   "status": "proved",
   "theorems": [
    "C50_cached_hash_check",
    "C50_generated_accepted"
   ],
   "note": "All seven profiles."
  },
  {
   "property": "C51",
   "status": "proved",
   "theorems": [
    "C51_version_field_detected"
   ],
   "note": "Byte-level analysis of the detection heuristics on encoder output."
  },
  {
   "property": "C52",
   "status": "partial",
   "theorems": [
    "C52_missing_version_field_refuted",
    "C52_missing_version_field_sharp"
   ],
   "note": "refuted: exactly the entry counts that are multiples of 256 are misread as version field 128 (entry count read one byte too far)."
  },
  {
   "property": "C53",
   "status": "partial",
   "theorems": [
    "C53_guess_strict_refuted"
   ],
   "note": "refuted: version number equal to the field is accepted without hash check (header 1, version 1)."
  },
  {
   "property": "C54",
   "status": "partial",
   "theorems": [
    "C54_explicit_without_field_refuted",
    "C54_explicit_only_770"
   ],
   "note": "refuted: every explicit version other than 770 is rejected."
  },
  {
   "property": "C55",
   "status": "partial",
   "theorems": [
    "C55_brute_force_all_refuted"
   ],
   "note": "refuted: hash 0xFFFFFFFF is never tried."
  },
  {
   "property": "C56",
   "status": "proved",
   "theorems": [
    "C56_bit_search_exact"
   ],
   "note": "Invariant of the recursion: bits below the index agree with the column sums; see Proofs/VersionL.v backtrack_spec."
  },
  {
   "property": "C57",
   "status": "proved",
   "theorems": [
    "C57_chain_complete_when_nonempty"
   ],
   "note": "Induction on the iterator state."
  },
  {
   "property": "C58",
   "status": "proved",
   "theorems": [
    "C58_stored_string_read",
    "C58_inline_block_read",
    "C58_offset_block_read",
    "C58_pkg2_name_read"
   ],
   "note": "The byte layout is defined in Spec/StrWire.v, independent of the model. The texts excluded are exactly those whose length does not fit the length field."
  },
  {
   "property": "C59",
   "status": "proved",
   "theorems": [
    "C59_built_string_bytes"
   ],
   "note": "Compared with the layout of Spec/StrWire.v."
  },
  {
   "property": "C60",
   "status": "proved",
   "theorems": [
    "C60_pkg2_key_schedule",
    "C60_pkg2_key_derivation"
   ],
   "note": "Arithmetic written with div/mod instead of shifts and masks."
  },
  {
   "property": "C61",
   "status": "proved",
   "theorems": [
    "C61_links_are_uol_nodes"
   ],
   "note": "UOL nodes are represented by their paths below the list."
  },
  {
   "property": "C62",
   "status": "proved",
   "theorems": [
    "C62_parsing_terminates"
   ],
   "note": "Fuel 2*length+1 is never exhausted. The hypothesis is over all positions holding 0x80 followed by a 32-bit number."
  },
  {
   "property": "C63",
   "status": "partial",
   "theorems": [
    "C63_work_bounded_refuted"
   ],
   "note": "refuted: size fields need not cover what was parsed inside, so the same bytes are parsed again by each ancestor; 1149 bytes give at least 2^63 nodes."
  },
  {
   "property": "C64",
   "status": "proved",
   "theorems": [
    "C64_missing_last_component"
   ],
   "note": "The components before the last lead through sub-properties with unique names."
  },
  {
   "property": "C65",
   "status": "proved",
   "theorems": [
    "C65_unknown_type_named"
   ],
   "note": "The type name may be in place or given by reference."
  },
  {
   "property": "C66",
   "status": "partial",
   "theorems": [
    "C66_direct_access_canvas_refuted"
   ],
   "note": "refuted: get_node skips the two bytes of a sub-property header where a canvas has one more, so the list is read from the wrong place and the child is not found."
  },
  {
   "property": "C67",
   "status": "proved",
   "theorems": [
    "C67_detection_accepts"
   ],
   "note": "The state left behind by failing candidates is part of the model. A panic or endless recursion under an earlier wrong candidate is not excluded (C23, C74)."
  },
  {
   "property": "C68",
   "status": "partial",
   "theorems": [
    "C68_detected_version_refuted"
   ],
   "note": "refuted: an empty package made with version 630 is reported as version 83."
  },
  {
   "property": "C69",
   "status": "proved",
   "theorems": [
    "C69_accepted_tree"
   ],
   "note": "For every buffer, whatever its content."
  },
  {
   "property": "C70",
   "status": "proved",
   "theorems": [
    "C70_pkg2_roundtrip"
   ],
   "note": "Layout relation Spec/DirWire2.v with strict = true; the excluded cases are C71-C73."
  },
  {
   "property": "C71",
   "status": "partial",
   "theorems": [
    "C71_any_count_refuted"
   ],
   "note": "refuted: a count of 3 is taken for another entry."
  },
  {
   "property": "C72",
   "status": "partial",
   "theorems": [
    "C72_empty_directory_refuted"
   ],
   "note": "refuted: the listing is refused, and with it the package."
  },
  {
   "property": "C73",
   "status": "partial",
   "theorems": [
    "C73_wide_subdirectory_refuted",
    "C73_top_bit_rejected"
   ],
   "note": "refuted: if hash1 xor hash has its top bit set every subdirectory is refused."
  },
  {
   "property": "C74",
   "status": "partial",
   "theorems": [
    "C74_no_panic_refuted"
   ],
   "note": "refuted: an 18-byte package whose only name reaches behind the end of the file."
  },
  {
   "property": "C75",
   "status": "partial",
   "theorems": [
    "C75_images_inside_refuted"
   ],
   "note": "refuted: an image of size 2^64 - 5 is accepted. The form that holds is in C69."
  },
  {
   "property": "C76",
   "status": "proved",
   "theorems": [
    "C76_text_images"
   ],
   "note": "For every buffer below 2 GiB."
  },
  {
   "property": "C77",
   "status": "partial",
   "theorems": [
    "C77_root_path_refuted",
    "C77_slash_name_refuted"
   ],
   "note": "refuted: the root's path is not found, nor is a child whose name contains a slash."
  },
  {
   "property": "C78",
   "status": "proved",
   "theorems": [
    "C78_image_path",
    "C78_no_image"
   ],
   "note": ""
  },
  {
   "property": "C79",
   "status": "proved",
   "theorems": [
    "C79_nearest_ancestor",
    "C79_no_ancestor",
    "C79_outlink"
   ],
   "note": ""
  },
  {
   "property": "C80",
   "status": "proved",
   "theorems": [
    "C80_repair_parents"
   ],
   "note": ""
  },
  {
   "property": "C81",
   "status": "partial",
   "theorems": [
    "C81_climbing_out_refuted"
   ],
   "note": "refuted: '..' is pushed when the list is empty and popped by the next '..', so '../../dir' right below the root is 'dir'."
  },
  {
   "property": "C82",
   "status": "partial",
   "theorems": [
    "C82_dot_dropped_refuted"
   ],
   "note": "refuted: './y' keeps the '.', and the lookup fails."
  },
  {
   "property": "C83",
   "status": "partial",
   "theorems": [
    "C83_chains_refuted"
   ],
   "note": "refuted: a link to a link that comes later is replaced by that link node, which stays a link."
  },
  {
   "property": "C84",
   "status": "partial",
   "theorems": [
    "C84_walk_ends_refuted"
   ],
   "note": "refuted: a link to an ancestor makes the walk without parsing endless (out of fuel for every fuel) and the walk with parsing lock a node it holds."
  },
  {
   "property": "C85",
   "status": "proved",
   "theorems": [
    "C85_found_again"
   ],
   "note": "Assumes that reading only adds nodes and that links found lie inside what was read."
  },
  {
   "property": "C86",
   "status": "partial",
   "theorems": [
    "C86_no_panic_refuted",
    "C86_image_itself_refuted",
    "C86_rest_lost_refuted"
   ],
   "note": "refuted: a path ending at an image without '.img' panics, one ending in '.img' finds nothing, a second '.img' cuts the rest."
  },
  {
   "property": "C87",
   "status": "proved",
   "theorems": [
    "C87_without_parse"
   ],
   "note": "The lookup in an unparsed image is a parameter here; it is modelled and proved in C19."
  },
  {
   "property": "C88",
   "status": "partial",
   "theorems": [
    "C88_transfer_to_self_refuted"
   ],
   "note": "refuted: the write lock of the target is the one the caller holds."
  },
  {
   "property": "C89",
   "status": "partial",
   "theorems": [
    "C89_only_known_nodes_refuted"
   ],
   "note": "refuted: a type-2 entry whose referenced type byte is 2 again becomes an empty node."
  },
  {
   "property": "C90",
   "status": "proved",
   "theorems": [
    "C90_listing_types",
    "C90_negative_count"
   ],
   "note": ""
  },
  {
   "property": "C91",
   "status": "partial",
   "theorems": [
    "C91_wrong_profile_refuted"
   ],
   "note": "refuted: panics; WzDirectory::new sets such a profile."
  },
  {
   "property": "C92",
   "status": "partial",
   "theorems": [
    "C92_any_width_refuted"
   ],
   "note": "refuted: blocks per row are rounded down"
  },
  {
   "property": "C93",
   "status": "partial",
   "theorems": [
    "C93_serial_refuted"
   ],
   "note": "refuted: index out of bounds"
  },
  {
   "property": "C94",
   "status": "partial",
   "theorems": [
    "C94_four_colors_refuted"
   ],
   "note": "refuted: the three-colour table of DXT1 is used when the first end colour is not the larger"
  },
  {
   "property": "C95",
   "status": "partial",
   "theorems": [
    "C95_other_sizes_refuted"
   ],
   "note": "refuted: pixels right of the last whole square stay black"
  },
  {
   "property": "C96",
   "status": "partial",
   "theorems": [
    "C96_damaged_refuted",
    "C96_short_refuted"
   ],
   "note": "refuted: slices panic"
  },
  {
   "property": "C97",
   "status": "partial",
   "theorems": [
    "C97_known_formats_refuted"
   ],
   "note": "refuted: A8 and RGBA32Float"
  },
  {
   "property": "C98",
   "status": "partial",
   "theorems": [
    "C98_bc7_blocks",
    "C98_bc7_size_refuted"
   ],
   "note": "refuted: proved for multiples of four (C98_bc7_blocks); not rounded up otherwise"
  },
  {
   "property": "C99",
   "status": "partial",
   "theorems": [
    "C99_small_dxt_refuted"
   ],
   "note": "refuted: 1x1 panics"
  },
  {
   "property": "C100",
   "status": "partial",
   "theorems": [
    "C100_huge_refuted",
    "C100_coarse_refuted"
   ],
   "note": "refuted: the 32-bit product wraps; in the coarse 565 format such sizes are a panic"
  },
  {
   "property": "C101",
   "status": "proved",
   "theorems": [
    "C101_short_565"
   ],
   "note": ""
  },
  {
   "property": "C102",
   "status": "proved",
   "theorems": [
    "C102_bc7_pixels"
   ],
   "note": "The BC7 decoder itself (texture2ddecoder) is an arbitrary function."
  },
  {
   "property": "C103",
   "status": "proved",
   "theorems": [
    "C103_rayon_same"
   ],
   "note": ""
  },
  {
   "property": "C104",
   "status": "proved",
   "theorems": [
    "C104_add"
   ],
   "note": ""
  },
  {
   "property": "C105",
   "status": "partial",
   "theorems": [
    "C105_added_path_refuted"
   ],
   "note": "refuted: add does not set the parent pointer"
  },
  {
   "property": "C106",
   "status": "proved",
   "theorems": [
    "C106_unparse"
   ],
   "note": ""
  },
  {
   "property": "C107",
   "status": "partial",
   "theorems": [
    "C107_ms_file_refuted"
   ],
   "note": "refuted: an MsFile node returns early"
  },
  {
   "property": "C108",
   "status": "proved",
   "theorems": [
    "C108_sealed"
   ],
   "note": ""
  },
  {
   "property": "C109",
   "status": "proved",
   "theorems": [
    "C109_script"
   ],
   "note": ""
  },
  {
   "property": "C110",
   "status": "partial",
   "theorems": [
    "C110_plain_refuted"
   ],
   "note": "refuted: the script \"I=1\" is read with the GMS key."
  },
  {
   "property": "C111",
   "status": "partial",
   "theorems": [
    "C111_length_refuted"
   ],
   "note": "refuted: slice panics."
  },
  {
   "property": "C112",
   "status": "proved",
   "theorems": [
    "C112_stored"
   ],
   "note": ""
  },
  {
   "property": "C113",
   "status": "partial",
   "theorems": [
    "C113_data_present_refuted"
   ],
   "note": "refuted: lengths are not checked when parsing; get_buffer panics."
  },
  {
   "property": "C114",
   "status": "proved",
   "theorems": [
    "C114_no_picture"
   ],
   "note": "for any decompressor and block decoder"
  },
  {
   "property": "C115",
   "status": "proved",
   "theorems": [
    "C115_standard"
   ],
   "note": ""
  },
  {
   "property": "C116",
   "status": "partial",
   "theorems": [
    "C116_standard_refuted",
    "C116_full_is_false"
   ],
   "note": "refuted: key bytes are taken as signed; the archives rely on it, so the variant is the specification in C38"
  },
  {
   "property": "C117",
   "status": "partial",
   "theorems": [
    "C117_odd_refuted",
    "C117_full_is_false"
   ],
   "note": "refuted: after a read of three bytes the second number is wrong"
  },
  {
   "property": "C118",
   "status": "partial",
   "theorems": [
    "C118_bytes_refuted"
   ],
   "note": "refuted: one byte after one byte panics"
  },
  {
   "property": "C119",
   "status": "proved",
   "theorems": [
    "C119_short"
   ],
   "note": ""
  },
  {
   "property": "C120",
   "status": "proved",
   "theorems": [
    "C120_archive"
   ],
   "note": "the making of WzNodes from the entries is not modelled"
  },
  {
   "property": "C121",
   "status": "proved",
   "theorems": [
    "C121_header"
   ],
   "note": "salt lengths below 128 and at most the number of random bytes"
  },
  {
   "property": "C122",
   "status": "partial",
   "theorems": [
    "C122_open_refuted",
    "C122_full_is_false"
   ],
   "note": "refuted: files shorter than the random bytes panic"
  },
  {
   "property": "C123",
   "status": "partial",
   "theorems": [
    "C123_image_refuted"
   ],
   "note": "refuted: empty names (remainder by zero), size above block size"
  },
  {
   "property": "C124",
   "status": "partial",
   "theorems": [
    "C124_count_refuted"
   ],
   "note": "refuted: negative entry count"
  },
  {
   "property": "C125",
   "status": "proved",
   "theorems": [
    "C125_plain"
   ],
   "note": ""
  },
  {
   "property": "C126",
   "status": "partial",
   "theorems": [
    "C126_cut_refuted",
    "C126_full_is_false"
   ],
   "note": "refuted: after a read that ends on a 64-byte boundary the key stream starts from its first block again"
  },
  {
   "property": "C127",
   "status": "partial",
   "theorems": [
    "C127_end_refuted"
   ],
   "note": "refuted: the second of two numbers in the last block panics"
  },
  {
   "property": "C128",
   "status": "proved",
   "theorems": [
    "C128_placed"
   ],
   "note": ""
  },
  {
   "property": "C129",
   "status": "proved",
   "theorems": [
    "C129_image"
   ],
   "note": ""
  },
  {
   "property": "C130",
   "status": "proved",
   "theorems": [
    "C130_archive"
   ],
   "note": "hypothesis not_version1: opening tries version 1 first, see C134"
  },
  {
   "property": "C131",
   "status": "proved",
   "theorems": [
    "C131_header"
   ],
   "note": ""
  },
  {
   "property": "C132",
   "status": "partial",
   "theorems": [
    "C132_name_refuted"
   ],
   "note": "refuted: names that are not ASCII panic"
  },
  {
   "property": "C133",
   "status": "partial",
   "theorems": [
    "C133_count_refuted"
   ],
   "note": "refuted: a negative count panics, the hash is not checked"
  },
  {
   "property": "C134",
   "status": "partial",
   "theorems": [
    "C134_open_refuted",
    "C134_full_is_false"
   ],
   "note": "refuted: the version 1 attempt panics when 4 xor the first byte xor its half exceeds the number of random bytes"
  },
  {
   "property": "C135",
   "status": "proved",
   "theorems": [
    "C135_guarded",
    "C135_archive_names"
   ],
   "note": "UTF-16 bodies of even length (an odd length panics in chunks(2))"
  },
  {
   "property": "C136",
   "status": "proved",
   "theorems": [
    "C136_key_accepted"
   ],
   "note": "files below 2 GiB; first entry of type 3 or 4"
  },
  {
   "property": "C137",
   "status": "proved",
   "theorems": [
    "C137_first_fitting"
   ],
   "note": "files below 2 GiB; first entry of type 3 or 4"
  },
  {
   "property": "C138",
   "status": "proved",
   "theorems": [
    "C138_right_key_found"
   ],
   "note": "real AES-256 evaluated for the few key bytes needed"
  },
  {
   "property": "C139",
   "status": "partial",
   "theorems": [
    "C139_short_sea_name_refuted"
   ],
   "note": "refuted: an EMS package whose first name is one character is taken for a GMS one; C138 is the true form"
  },
  {
   "property": "C140",
   "status": "proved",
   "theorems": [
    "C140_foreign_name"
   ],
   "note": "a behaviour users should know of; the wish is C141"
  },
  {
   "property": "C141",
   "status": "partial",
   "theorems": [
    "C141_key_found_refuted"
   ],
   "note": "refuted: for a GMS package with a Korean first name no key is found"
  },
  {
   "property": "C142",
   "status": "proved",
   "theorems": [
    "C142_image_accepted"
   ],
   "note": "files below 2 GiB"
  },
  {
   "property": "C143",
   "status": "proved",
   "theorems": [
    "C143_image_opened"
   ],
   "note": "built-in AES user key; files below 2 GiB"
  },
  {
   "property": "C144",
   "status": "proved",
   "theorems": [
    "C144_no_panic"
   ],
   "note": ""
  },
  {
   "property": "C145",
   "status": "partial",
   "theorems": [
    "C145_empty_image_refuted"
   ],
   "note": "refuted: without an IV an empty file panics (buf[0]); C144 covers all other files"
  },
  {
   "property": "C146",
   "status": "partial",
   "theorems": [
    "C146_other_images_refuted"
   ],
   "note": "refuted: script (0x01) and text (0x23) images are refused with every IV and without one"
  },
  {
   "property": "C147",
   "status": "proved",
   "theorems": [
    "C147_package2_key_found"
   ],
   "note": "files below 2 GiB"
  },
  {
   "property": "C148",
   "status": "partial",
   "theorems": [
    "C148_short_package2_name_refuted"
   ],
   "note": "refuted: a package starting with \"Mob.img\" (7 characters) is taken for one with open names"
  },
  {
   "property": "C149",
   "status": "proved",
   "theorems": [
    "C149_classic_package"
   ],
   "note": "built-in AES user key; files below 2 GiB; from the bytes of the file to the tree"
  },
  {
   "property": "C150",
   "status": "proved",
   "theorems": [
    "C150_classic_detection"
   ],
   "note": "a smaller version may be taken (C68)"
  },
  {
   "property": "C151",
   "status": "partial",
   "theorems": [
    "C151_right_iv_refuted"
   ],
   "note": "refuted: if the first name is not ASCII text the right IV is dismissed without notice and the names come out wrong; C149 is the true form"
  },
  {
   "property": "C152",
   "status": "partial",
   "theorems": [
    "C152_entry_elsewhere_refuted"
   ],
   "note": "refuted: the key check looks for the name two bytes off, dismisses the right IV and the names come out wrong"
  },
  {
   "property": "C153",
   "status": "proved",
   "theorems": [
    "C153_wide_package"
   ],
   "note": "files below 2 GiB"
  },
  {
   "property": "C154",
   "status": "partial",
   "theorems": [
    "C154_unlucky_count_refuted"
   ],
   "note": "refuted: if the stored count looks like an entry a key is guessed from it and the package is refused; C153 is the true form"
  },
  {
   "property": "C155",
   "status": "partial",
   "theorems": [
    "C155_zero_hash_refuted"
   ],
   "note": "refuted: a package whose hash is 0 is refused; C153 is the true form"
  },
  {
   "property": "C156",
   "status": "proved",
   "theorems": [
    "C156_narrow_package"
   ],
   "note": "files below 2 GiB"
  },
  {
   "property": "C157",
   "status": "proved",
   "theorems": [
    "C157_fixed_key_package"
   ],
   "note": "files below 2 GiB"
  },
  {
   "property": "C158",
   "status": "partial",
   "theorems": [
    "C158_short_fixed_key_refuted"
   ],
   "note": "refuted: with a first name shorter than 8 the names are taken for names that are not enciphered and the package is refused"
  },
  {
   "property": "C159",
   "status": "partial",
   "theorems": [
    "C159_name_check_key_blind",
    "C159_wrong_name_key_refuted"
   ],
   "note": "refuted: the check gives the same answer for all keys; a package is read with wrong names"
  },
  {
   "property": "C160",
   "status": "proved",
   "theorems": [
    "C160_no_header"
   ],
   "note": "for any key streams"
  },
  {
   "property": "C161",
   "status": "proved",
   "theorems": [
    "C161_accepted_file"
   ],
   "note": "for any key streams; versions below 1000000"
  },
  {
   "property": "C162",
   "status": "proved",
   "theorems": [
    "C162_simple_json_pictures",
    "C162_simple_json_paths"
   ],
   "note": "against the relations pictures and plain of Spec/JsonView.v; the fields of a canvas give way to children of the same name (see C167)"
  },
  {
   "property": "C163",
   "status": "proved",
   "theorems": [
    "C163_simple_json_total"
   ],
   "note": ""
  },
  {
   "property": "C164",
   "status": "partial",
   "theorems": [
    "C164_export_panics_refuted"
   ],
   "note": "refuted: Number::from_f64(..).unwrap() panics on a stored NaN; the condition under which export returns is C163"
  },
  {
   "property": "C165",
   "status": "proved",
   "theorems": [
    "C165_order_irrelevant"
   ],
   "note": "for exports that return; which error comes first may depend on the order"
  },
  {
   "property": "C166",
   "status": "partial",
   "theorems": [
    "C166_kinds_confused_refuted"
   ],
   "note": "refuted: a vector looks like a sub-property with x and y, an empty sub-property like null, an Int like a Long"
  },
  {
   "property": "C167",
   "status": "partial",
   "theorems": [
    "C167_canvas_size_hidden_refuted"
   ],
   "note": "refuted: a child named width replaces the field"
  },
  {
   "property": "C168",
   "status": "proved",
   "theorems": [
    "C168_full_json_records"
   ],
   "note": ""
  },
  {
   "property": "C169",
   "status": "proved",
   "theorems": [
    "C169_full_json_total"
   ],
   "note": ""
  },
  {
   "property": "C170",
   "status": "partial",
   "theorems": [
    "C170_export_lost_refuted"
   ],
   "note": "refuted: a script image cannot be exported; the exact condition is C169"
  },
  {
   "property": "C171",
   "status": "proved",
   "theorems": [
    "C171_json_roundtrip"
   ],
   "note": "nulls, non-finite floats, astral text and order are C172-C175; fields marked serde(skip) are not part of the model's objects"
  },
  {
   "property": "C172",
   "status": "partial",
   "theorems": [
    "C172_null_changes_refuted"
   ],
   "note": "refuted: {type: Null} is accepted by the catch-all variant of WzSubProperty, which is tried first"
  },
  {
   "property": "C173",
   "status": "partial",
   "theorems": [
    "C173_float_changes_refuted"
   ],
   "note": "refuted: NaN and infinities are written as null and come back as sub-properties"
  },
  {
   "property": "C174",
   "status": "partial",
   "theorems": [
    "C174_text_changes_refuted"
   ],
   "note": "refuted: the string is rebuilt by WzString::from_str, which miscounts astral characters (C49)"
  },
  {
   "property": "C175",
   "status": "partial",
   "theorems": [
    "C175_order_changes_refuted"
   ],
   "note": "refuted: serde_json's map sorts the names"
  },
  {
   "property": "C176",
   "status": "partial",
   "theorems": [
    "C176_unknown_kind_refuted"
   ],
   "note": "refuted: a node of unknown type without data becomes a sub-property"
  },
  {
   "property": "C177",
   "status": "proved",
   "theorems": [
    "C177_image_json",
    "C177_layout_json"
   ],
   "note": "before UOL nodes are replaced by their targets"
  },
  {
   "property": "C178",
   "status": "proved",
   "theorems": [
    "C178_linked_tree_json"
   ],
   "note": ""
  },
  {
   "property": "C179",
   "status": "partial",
   "theorems": [
    "C179_export_ends_refuted"
   ],
   "note": "refuted: a UOL to an ancestor makes a cycle, on which both exports recurse for ever; true on finite trees by C178"
  },
  {
   "property": "C180",
   "status": "partial",
   "theorems": [
    "C180_damaged_text_refuted"
   ],
   "note": "refuted: unwrap_or_default turns the read error into an empty text"
  },
  {
   "property": "C181",
   "status": "proved",
   "theorems": [
    "C181_assembled"
   ],
   "note": "By induction on the directory; the result is described without an order of visiting."
  },
  {
   "property": "C182",
   "status": "proved",
   "theorems": [
    "C182_order"
   ],
   "note": "Both results meet the same orderless description, which fixes the tree."
  },
  {
   "property": "C183",
   "status": "partial",
   "theorems": [
    "C183_order_refuted"
   ],
   "note": "refuted: the entry listed last wins, or the directory is left out."
  },
  {
   "property": "C184",
   "status": "proved",
   "theorems": [
    "C184_parents"
   ],
   "note": "Invariant of both loops, for every successful result."
  },
  {
   "property": "C185",
   "status": "proved",
   "theorems": [
    "C185_sources"
   ],
   "note": "Invariant of both loops, for every successful result."
  },
  {
   "property": "C186",
   "status": "proved",
   "theorems": [
    "C186_base"
   ],
   "note": "The first stage is C181; the loop over the installation keeps an invariant that says which entries are done."
  },
  {
   "property": "C187",
   "status": "partial",
   "theorems": [
    "C187_missing_refuted"
   ],
   "note": "refuted: try_exists is Ok(false) for a missing file, is_ok holds, and opening the file panics."
  },
  {
   "property": "C188",
   "status": "partial",
   "theorems": [
    "C188_stray_refuted"
   ],
   "note": "refuted: a file notes_1.txt is taken for a piece, and opening it panics."
  },
  {
   "property": "C189",
   "status": "partial",
   "theorems": [
    "C189_series_refuted"
   ],
   "note": "refuted: with all packages in one directory, the nodes of Mob_1.wz appear in Map and in Base too."
  },
  {
   "property": "C190",
   "status": "partial",
   "theorems": [
    "C190_piece_error_refuted"
   ],
   "note": "refuted: the result is that without the piece."
  },
  {
   "property": "C191",
   "status": "partial",
   "theorems": [
    "C191_paths_refuted"
   ],
   "note": "refuted: Base.wz and Base/Base.wz as relative paths are errors, /Base.wz panics."
  },
  {
   "property": "C192",
   "status": "partial",
   "theorems": [
    "C192_backup_refuted"
   ],
   "note": "refuted: a directory Map.bak panics, or takes the place of Map."
  },
  {
   "property": "C193",
   "status": "proved",
   "theorems": [
    "C193_layout_full",
    "C193_raw_none"
   ],
   "note": "The property theorems give the parsed tree; induction on it against a relation between stored properties and JSON."
  },
  {
   "property": "C194",
   "status": "proved",
   "theorems": [
    "C194_iv_found"
   ],
   "note": "The right IV is always accepted; the loop takes the first that is."
  },
  {
   "property": "C195",
   "status": "partial",
   "theorems": [
    "C195_iv_right_refuted"
   ],
   "note": "refuted: a first name that is not ASCII reads as some text under the open key."
  },
  {
   "property": "C196",
   "status": "proved",
   "theorems": [
    "C196_entry_elsewhere"
   ],
   "note": "As C138, with the position of the name computed from the reference; C152 shows that it fails with a version field."
  },
  {
   "property": "C197",
   "status": "proved",
   "theorems": [
    "C197_picture"
   ],
   "note": "Induction on the chain of links, given as a relation on the tree; every lookup is the descent by the names of the link."
  },
  {
   "property": "C198",
   "status": "proved",
   "theorems": [
    "C198_kept",
    "C198_outlink_read"
   ],
   "note": "Parsing changes no parsed node; so the names found on the way are found afterwards."
  },
  {
   "property": "C199",
   "status": "partial",
   "theorems": [
    "C199_released_refuted"
   ],
   "note": "refuted: the image has no children then, the _inlink finds nothing, and without an error the canvas' own pixels are shown."
  },
  {
   "property": "C200",
   "status": "partial",
   "theorems": [
    "C200_dangling_refuted"
   ],
   "note": "refuted: with a package that is not called Base, an _outlink is silently ignored; LinkError is never made."
  },
  {
   "property": "C201",
   "status": "partial",
   "theorems": [
    "C201_circle_refuted"
   ],
   "note": "refuted: canvases linked in a circle; no number of steps is enough, the stack overflows."
  },
  {
   "property": "C202",
   "status": "partial",
   "theorems": [
    "C202_own_pixels_refuted"
   ],
   "note": "refuted: a link to a node that is no canvas is an error, the canvas' own pixels are not tried."
  },
  {
   "property": "C203",
   "status": "partial",
   "theorems": [
    "C203_locks_up_refuted"
   ],
   "note": "refuted: if the link passes through the canvas itself, which is locked for reading, locking it for writing blocks or panics."
  },
  {
   "property": "C204",
   "status": "proved",
   "theorems": [
    "C204_free_string",
    "C204_free_block",
    "C204_free_numbers",
    "C204_free_text"
   ],
   "note": ""
  },
  {
   "property": "C205",
   "status": "proved",
   "theorems": [
    "C205_free_and_reader"
   ],
   "note": ""
  },
  {
   "property": "C206",
   "status": "partial",
   "theorems": [
    "C206_free_no_panic_refuted"
   ],
   "note": "refuted: a string shorter than its length, an offset behind the end and a length behind the end panic; the reader method reports an error for the same bytes"
  },
  {
   "property": "C207",
   "status": "partial",
   "theorems": [
    "C207_negative_length_refuted"
   ],
   "note": "refuted: for the UTF-16 length -2^31+1 the method doubles it in i32 and reads one character, the slice function returns the empty text"
  },
  {
   "property": "C208",
   "status": "proved",
   "theorems": [
    "C208_exact",
    "C208_undone",
    "C208_division"
   ],
   "note": "release profile: i32 operators wrap"
  },
  {
   "property": "C209",
   "status": "partial",
   "theorems": [
    "C209_overflow_refuted"
   ],
   "note": "refuted: release builds wrap silently (debug builds panic)"
  },
  {
   "property": "C210",
   "status": "proved",
   "theorems": [
    "C210_division_panics"
   ],
   "note": ""
  },
  {
   "property": "C211",
   "status": "proved",
   "theorems": [
    "C211_symmetric",
    "C211_self"
   ],
   "note": "f64 as in Coq's SpecFloat (IEEE 754 binary64)"
  },
  {
   "property": "C212",
   "status": "partial",
   "theorems": [
    "C212_distance_refuted"
   ],
   "note": "refuted: the ends of the axis, 4294967295 apart, are at distance 1 because the difference is taken in i32"
  },
  {
   "property": "C213",
   "status": "proved",
   "theorems": [
    "C213_sharing_unseen"
   ],
   "note": ""
  },
  {
   "property": "C214",
   "status": "proved",
   "theorems": [
    "C214_encoded_decoded"
   ],
   "note": ""
  },
  {
   "property": "C215",
   "status": "proved",
   "theorems": [
    "C215_name_encoded_decoded"
   ],
   "note": ""
  },
  {
   "property": "C216",
   "status": "partial",
   "theorems": [
    "C216_name_encoded_decoded_refuted"
   ],
   "note": "refuted: encrypt_str uses the string key for names too, decoding uses the package-2 key; with_existing_keys of a package-2 key makes the string key plain. True under one key (C215)."
  },
  {
   "property": "C217",
   "status": "proved",
   "theorems": [
    "C217_existing_keys",
    "C217_with_iv",
    "C217_new_plain",
    "C217_slice_reader"
   ],
   "note": ""
  },
  {
   "property": "C218",
   "status": "proved",
   "theorems": [
    "C218_asked"
   ],
   "note": ""
  },
  {
   "property": "C219",
   "status": "partial",
   "theorems": [
    "C219_custom_refuted"
   ],
   "note": "refuted: get_decryptor(Custom) unwraps a cell that nothing in the crate sets, and panics. True for the other types (C218)."
  },
  {
   "property": "C220",
   "status": "proved",
   "theorems": [
    "C220_new_key_alone"
   ],
   "note": ""
  },
  {
   "property": "C221",
   "status": "partial",
   "theorems": [
    "C221_hash_refuted"
   ],
   "note": "refuted: the hash of a package-2 key is its lower 32 bits, but its fifth byte is part of the keys. True for IVs (C222)."
  },
  {
   "property": "C222",
   "status": "proved",
   "theorems": [
    "C222_hash",
    "C222_ivs_apart"
   ],
   "note": ""
  },
  {
   "property": "C223",
   "status": "proved",
   "theorems": [
    "C223_classic_content"
   ],
   "note": "Linkless: images without UOL nodes; see C31, C86 for what those do."
  },
  {
   "property": "C224",
   "status": "proved",
   "theorems": [
    "C224_found_again"
   ],
   "note": ""
  },
  {
   "property": "C225",
   "status": "proved",
   "theorems": [
    "C225_wide_content"
   ],
   "note": ""
  },
  {
   "property": "C226",
   "status": "proved",
   "theorems": [
    "C226_lossy"
   ],
   "note": "String::from_utf8_lossy and from_utf16_lossy are modelled after the documentation of the Rust standard library."
  },
  {
   "property": "C227",
   "status": "proved",
   "theorems": [
    "C227_classic_tour"
   ],
   "note": "World.v: heap of nodes with parse, unparse and walk over the bytes of the file. f is taken to change nothing."
  },
  {
   "property": "C228",
   "status": "proved",
   "theorems": [
    "C228_wide_tour"
   ],
   "note": ""
  },
  {
   "property": "C229",
   "status": "proved",
   "theorems": [
    "C229_directories_stay"
   ],
   "note": ""
  },
  {
   "property": "C230",
   "status": "partial",
   "theorems": [
    "C230_properties_stay_refuted"
   ],
   "note": "refuted: the forced walk drops the children of every image, also those that were read before it; a node a caller kept is then no longer in the tree, at_path finds nothing, and at_path_parsed makes a second node. Without forced walks it holds (C224)."
  },
  {
   "property": "C231",
   "status": "proved",
   "theorems": [
    "C231_set_iv"
   ],
   "note": "The block cipher is any oracle of 16 bytes to 16 bytes."
  },
  {
   "property": "C232",
   "status": "proved",
   "theorems": [
    "C232_decrypt_without_growing"
   ],
   "note": ""
  },
  {
   "property": "C233",
   "status": "proved",
   "theorems": [
    "C233_asking_on"
   ],
   "note": ""
  },
  {
   "property": "C234",
   "status": "proved",
   "theorems": [
    "C234_newest_first"
   ],
   "note": "packages under the name key made of the hashes; hashes the search cannot find are excluded by an explicit condition (C13, C14)"
  },
  {
   "property": "C235",
   "status": "proved",
   "theorems": [
    "C235_never_1199"
   ],
   "note": ""
  },
  {
   "property": "C236",
   "status": "proved",
   "theorems": [
    "C236_any_version"
   ],
   "note": ""
  },
  {
   "property": "C237",
   "status": "partial",
   "theorems": [
    "C237_own_generation_refuted"
   ],
   "note": "refuted: a package of KMST 1199 is opened, but never as one of 1199; what holds instead is C234"
  },
  {
   "property": "C238",
   "status": "proved",
   "theorems": [
    "C238_archive_content"
   ],
   "note": "the bytes are an archive by the layout of C120/C130; images without links (UOL) and not called .txt"
  },
  {
   "property": "C239",
   "status": "proved",
   "theorems": [
    "C239_archive_tour"
   ],
   "note": "the callback changes nothing"
  },
  {
   "property": "C240",
   "status": "proved",
   "theorems": [
    "C240_archive_names"
   ],
   "note": ""
  },
  {
   "property": "C241",
   "status": "partial",
   "theorems": [
    "C241_paths_in_archives_refuted"
   ],
   "note": "refuted: entry names such as Mob/x.img contain slashes and become one node; at_path and at_path_parsed split them and find nothing, though the full path of the node is Ab/Mob/x.img (the true form for plain names is C238, for all names with `at` C240)"
  },
  {
   "property": "C242",
   "status": "proved",
   "theorems": [
    "C242_image_file"
   ],
   "note": "not called .txt; no links"
  },
  {
   "property": "C243",
   "status": "proved",
   "theorems": [
    "C243_image_file_again"
   ],
   "note": ""
  },
  {
   "property": "C244",
   "status": "partial",
   "theorems": [
    "C244_image_file_walked_refuted"
   ],
   "note": "refuted: the walk lets the image at the top go, and at_path_parsed does not parse the node it starts from, so nothing is found until it is parsed again (C243); in packages and archives, where the file at the top is not let go, lookups go on (C227, C239)"
  },
  {
   "property": "C245",
   "status": "proved",
   "theorems": [
    "C245_unversioned_package"
   ],
   "note": "first entry has an ASCII name standing in its place (of two characters or more under the Sea key)"
  },
  {
   "property": "C246",
   "status": "proved",
   "theorems": [
    "C246_unversioned_content"
   ],
   "note": "property images not called .txt"
  },
  {
   "property": "C247",
   "status": "proved",
   "theorems": [
    "C247_lowest_version"
   ],
   "note": "without the condition the version may be another (C68, C150)"
  },
  {
   "property": "C248",
   "status": "proved",
   "theorems": [
    "C248_lowest_version_content"
   ],
   "note": "as C247 and C246"
  },
  {
   "property": "C249",
   "status": "proved",
   "theorems": [
    "C249_narrow_content"
   ],
   "note": "a hash of another candidate may be taken if the tree can be read with it (C156, C234, C237)"
  },
  {
   "property": "C250",
   "status": "proved",
   "theorems": [
    "C250_fixed_key_content"
   ],
   "note": "shorter first names: C158"
  },
  {
   "property": "C251",
   "status": "proved",
   "theorems": [
    "C251_linked_image"
   ],
   "note": "siblings have different names that are not empty, have no slash and are not '..'; no link leads to or past another link (C83 says what happens then)"
  },
  {
   "property": "C252",
   "status": "proved",
   "theorems": [
    "C252_linked_archive_image"
   ],
   "note": "siblings have different names that are not empty, have no slash and are not '..'; no link leads to or past another link (C83 says what happens then)"
  },
  {
   "property": "C253",
   "status": "proved",
   "theorems": [
    "C253_linked_image_file"
   ],
   "note": "siblings have different names that are not empty, have no slash and are not '..'; no link leads to or past another link (C83 says what happens then)"
  },
  {
   "property": "C254",
   "status": "proved",
   "theorems": [
    "C254_package_pictures"
   ],
   "note": "links in between (UOL) are left out; inlinks that go round are left out; the file is not called 'Base' (so no outlink applies); the decompressors are arbitrary functions; formats and sizes as in C34"
  },
  {
   "property": "C255",
   "status": "proved",
   "theorems": [
    "C255_wide_pictures"
   ],
   "note": "links in between (UOL) are left out; inlinks that go round are left out; the file is not called 'Base' (so no outlink applies); the decompressors are arbitrary functions; formats and sizes as in C34"
  },
  {
   "property": "C256",
   "status": "proved",
   "theorems": [
    "C256_image_file_pictures"
   ],
   "note": "links in between (UOL) are left out; inlinks that go round are left out; the file is not called 'Base' (so no outlink applies); the decompressors are arbitrary functions; formats and sizes as in C34"
  },
  {
   "property": "C257",
   "status": "proved",
   "theorems": [
    "C257_package_data",
    "C257_image_file_data"
   ],
   "note": "classic packages opened with their version, and image files; no UOL links"
  },
  {
   "property": "C258",
   "status": "proved",
   "theorems": [
    "C258_base_views"
   ],
   "note": "links in between (UOL) are left out, as are inlinks and outlinks that go round, and outlinks that lead below a canvas being shown (a deadlock, C203); the decompressors are arbitrary functions; formats and sizes as in C34"
  },
  {
   "property": "C259",
   "status": "proved",
   "theorems": [
    "C259_wide_base_views"
   ],
   "note": "links in between (UOL) are left out, as are inlinks and outlinks that go round, and outlinks that lead below a canvas being shown (a deadlock, C203); the decompressors are arbitrary functions; formats and sizes as in C34"
  },
  {
   "property": "C260",
   "status": "proved",
   "theorems": [
    "C260_archive_pictures"
   ],
   "note": "names of images without a slash (C241 shows why); inlinks that go round are left out; outlinks never apply, since an archive is no file called 'Base'; the decompressors are arbitrary functions; formats and sizes as in C34"
  },
  {
   "property": "C261",
   "status": "proved",
   "theorems": [
    "C261_archive_data"
   ],
   "note": "names of images without a slash (C241 shows why); no UOL links"
  },
  {
   "property": "C262",
   "status": "proved",
   "theorems": [
    "C262_base_blocked",
    "C262_wide_base_blocked"
   ],
   "note": "C258 and C259 are the other side: without such an outlink the picture is given; waiting for ever is written Panic in the model; single caller"
  },
  {
   "property": "C263",
   "status": "proved",
   "theorems": [
    "C263_base_round",
    "C263_wide_base_round"
   ],
   "note": "the number of nested calls is the fuel; real code ends when its stack does; where an outlink goes on beyond a canvas of the set C262 says what happens"
  },
  {
   "property": "C264",
   "status": "proved",
   "theorems": [
    "C264_base_cases",
    "C264_wide_base_cases"
   ],
   "note": "link texts with empty names (leading, trailing or double slashes) are left out by the hypothesis path_links"
  },
  {
   "property": "C265",
   "status": "proved",
   "theorems": [
    "C265_classic_links"
   ],
   "note": "links of an image must be simple (what they name is found without going through another link, or not at all), names unique in each list, not empty and without slashes or '..'; images without links are free of these conditions; the relations gets and lacks are in Spec/WholeLinks.v"
  },
  {
   "property": "C266",
   "status": "proved",
   "theorems": [
    "C266_wide_links"
   ],
   "note": "links of an image must be simple (what they name is found without going through another link, or not at all), names unique in each list, not empty and without slashes or '..'; images without links are free of these conditions; the relations gets and lacks are in Spec/WholeLinks.v"
  },
  {
   "property": "C267",
   "status": "proved",
   "theorems": [
    "C267_archive_links"
   ],
   "note": "links of an image must be simple (what they name is found without going through another link, or not at all), names unique in each list, not empty and without slashes or '..'; images without links are free of these conditions; the relations gets and lacks are in Spec/WholeLinks.v; images whose name has a slash in it cannot be reached by a path (C240)"
  },
  {
   "property": "C268",
   "status": "proved",
   "theorems": [
    "C268_unversioned_links",
    "C268_lowest_version_links"
   ],
   "note": "links of an image must be simple (what they name is found without going through another link, or not at all), names unique in each list, not empty and without slashes or '..'; images without links are free of these conditions; the relations gets and lacks are in Spec/WholeLinks.v"
  },
  {
   "property": "C269",
   "status": "proved",
   "theorems": [
    "C269_classic_link_tour"
   ],
   "note": "links must be simple (see C265); depth is fuel, so the walk returns at some depth if and only if the lengths of the paths are bounded; a forced walk that meets a node it holds for reading (a link that goes round) deadlocks, written Panic, otherwise a link that goes round would run out of every fuel; the visitor changes nothing"
  },
  {
   "property": "C270",
   "status": "proved",
   "theorems": [
    "C270_wide_link_tour"
   ],
   "note": "links must be simple (see C265); depth is fuel, so the walk returns at some depth if and only if the lengths of the paths are bounded; a forced walk that meets a node it holds for reading (a link that goes round) deadlocks, written Panic, otherwise a link that goes round would run out of every fuel; the visitor changes nothing"
  },
  {
   "property": "C271",
   "status": "proved",
   "theorems": [
    "C271_archive_link_tour"
   ],
   "note": "links must be simple (see C265); depth is fuel, so the walk returns at some depth if and only if the lengths of the paths are bounded; a forced walk that meets a node it holds for reading (a link that goes round) deadlocks, written Panic, otherwise a link that goes round would run out of every fuel; the visitor changes nothing"
  },
  {
   "property": "C272",
   "status": "proved",
   "theorems": [
    "C272_unversioned_link_tour",
    "C272_lowest_version_link_tour"
   ],
   "note": "links must be simple (see C265); depth is fuel, so the walk returns at some depth if and only if the lengths of the paths are bounded; a forced walk that meets a node it holds for reading (a link that goes round) deadlocks, written Panic, otherwise a link that goes round would run out of every fuel; the visitor changes nothing"
  },
  {
   "property": "C273",
   "status": "partial",
   "theorems": [
    "C273_walks_end_refuted"
   ],
   "note": "refuted: a well-formed package of version 83 has an image with a link to a node above it; the walk returns at no depth, in no order (it locks for writing a node it holds for reading). The true form is C269: it returns if and only if the paths are bounded."
  },
  {
   "property": "C274",
   "status": "proved",
   "theorems": [
    "C274_package_one_node",
    "C274_archive_one_node"
   ],
   "note": "links must be simple (see C265); packages: the kinds of C269, C270 and C272"
  },
  {
   "property": "C275",
   "status": "proved",
   "theorems": [
    "C275_package_ends_or_jams",
    "C275_archive_ends_or_jams"
   ],
   "note": "links must be simple (see C265); packages: the kinds of C269, C270 and C272; deadlock is written Panic"
  },
  {
   "property": "C276",
   "status": "proved",
   "theorems": [
    "C276_linked_pictures"
   ],
   "note": "links must be simple (see C265); pictures are described as in C254 (holds_picture); inlinks lead from the top of the image through its links, one that leads nowhere does not count"
  },
  {
   "property": "C277",
   "status": "proved",
   "theorems": [
    "C277_linked_data"
   ],
   "note": "links must be simple (see C265)"
  },
  {
   "property": "C278",
   "status": "proved",
   "theorems": [
    "C278_image_file_linked_pictures"
   ],
   "note": "links must be simple (see C265); pictures are described as in C254 (holds_picture); inlinks lead from the top of the image through its links, one that leads nowhere does not count; right after the file has been parsed, for later walks see C244"
  },
  {
   "property": "C279",
   "status": "proved",
   "theorems": [
    "C279_image_file_linked_data"
   ],
   "note": "links must be simple (see C265); right after the file has been parsed, for later walks see C244"
  },
  {
   "property": "C280",
   "status": "proved",
   "theorems": [
    "C280_archive_linked_pictures"
   ],
   "note": "links must be simple (see C265); pictures are described as in C254 (holds_picture); inlinks lead from the top of the image through its links, one that leads nowhere does not count"
  },
  {
   "property": "C281",
   "status": "proved",
   "theorems": [
    "C281_archive_linked_data"
   ],
   "note": "links must be simple (see C265)"
  },
  {
   "property": "C282",
   "status": "proved",
   "theorems": [
    "C282_unforced_walk"
   ],
   "note": "the callback is taken to change nothing; the children of a node are a map and nodes that are children stay alive, as in Rust"
  },
  {
   "property": "C283",
   "status": "proved",
   "theorems": [
    "C283_unforced_walk_is_at_path"
   ],
   "note": "a name with a slash is walked to, but at_path cannot name it"
  },
  {
   "property": "C284",
   "status": "proved",
   "theorems": [
    "C284_walk_lets_images_go"
   ],
   "note": "the walk is one that returns; when it deadlocks or the recursion is too deep nothing is said; the callback is taken to change nothing"
  }
 ]
}
