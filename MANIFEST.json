{
 "claims": [
  {
   "property": "C01",
   "status": "proved",
   "theorems": [
    "C01_read_exact",
    "C01_advance_exact",
    "C01_integers_exact"
   ],
   "note": "Reader state after an error is not modelled: every caller drops the reader."
  },
  {
   "property": "C02",
   "status": "proved",
   "theorems": [
    "C02_compact_exact",
    "C02_compact_range",
    "C02_compact_only_eof"
   ],
   "note": ""
  },
  {
   "property": "C03",
   "status": "proved",
   "theorems": [
    "C03_exguid_exact",
    "C03_exguid_bad_tag"
   ],
   "note": ""
  },
  {
   "property": "C04",
   "status": "proved",
   "theorems": [
    "C04_guid_exact",
    "C04_guid_injective",
    "C04_guid_byte_order"
   ],
   "note": ""
  },
  {
   "property": "C05",
   "status": "proved",
   "theorems": [
    "C05_multibyte_roundtrip",
    "C05_unsigned_roundtrip",
    "C05_signed_roundtrip",
    "C05_signed_total",
    "C05_count_respected"
   ],
   "note": ""
  },
  {
   "property": "C06",
   "status": "proved",
   "theorems": [
    "C06_truncated_accepted",
    "C06_overwide_reduced",
    "C06_eleven_bytes_rejected",
    "C06_truncation_rejected_refuted",
    "C06_overwide_rejected_refuted"
   ],
   "note": "The expectation that cut-off or over-wide integers are rejected is refuted; the actual rule is proved."
  },
  {
   "property": "C07",
   "status": "proved",
   "theorems": [
    "C07_start_exact",
    "C07_start16_exact",
    "C07_start32_exact",
    "C07_end8_exact",
    "C07_end16_exact",
    "C07_type_numbers",
    "C07_required_type"
   ],
   "note": ""
  },
  {
   "property": "C08",
   "status": "proved",
   "theorems": [
    "C08_self_delimiting",
    "C08_propset_self_delimiting"
   ],
   "note": ""
  },
  {
   "property": "C09",
   "status": "proved",
   "theorems": [
    "C09_truncation_reported",
    "C09_propset_truncation_reported"
   ],
   "note": ""
  },
  {
   "property": "C10",
   "status": "proved",
   "theorems": [
    "C10_package_total",
    "C10_propset_total",
    "C10_store_no_panic"
   ],
   "note": ""
  },
  {
   "property": "C11",
   "status": "proved",
   "theorems": [
    "C11_output_bounded",
    "C11_properties_bounded"
   ],
   "note": ""
  },
  {
   "property": "C12",
   "status": "proved",
   "theorems": [
    "C12_package_roundtrip",
    "C12_plain_file_roundtrip",
    "C12_header_file_roundtrip"
   ],
   "note": ""
  },
  {
   "property": "C13",
   "status": "proved",
   "theorems": [
    "C13_metadata_block_rejected",
    "C13_wellformed_metadata_rejected",
    "C13_no_metadata_in_package",
    "C13_metadata_loads_refuted"
   ],
   "note": "Expectation that such groups load is refuted; rejection proved for every input."
  },
  {
   "property": "C14",
   "status": "proved",
   "theorems": [
    "C14_fragment_rejected",
    "C14_fragment_body_roundtrip"
   ],
   "note": "Expectation that fragments load is refuted; rejection proved for every package."
  },
  {
   "property": "C15",
   "status": "proved",
   "theorems": [
    "C15_order_independent",
    "C15_two_manifests_refuted",
    "C15_shared_serial_refuted",
    "C15_error_kind_refuted"
   ],
   "note": "Holds under the stated conditions; each dropped condition has a refuting file, as has equality of error kinds."
  },
  {
   "property": "C16",
   "status": "proved",
   "theorems": [
    "C16_newest_object_wins",
    "C16_complete_chain_accepted"
   ],
   "note": ""
  },
  {
   "property": "C17",
   "status": "proved",
   "theorems": [
    "C17_oldest_root_wins",
    "C17_newest_root_refuted"
   ],
   "note": "Expectation refuted by a file; the rule the code follows is proved for every chain."
  },
  {
   "property": "C18",
   "status": "proved",
   "theorems": [
    "C18_acyclic_terminates",
    "C18_cycle_gives_no_result",
    "C18_termination_refuted"
   ],
   "note": "Termination refuted by a file; termination under acyclicity and absence of a result for cycles proved."
  },
  {
   "property": "C19",
   "status": "proved",
   "theorems": [
    "C19_object_roundtrip",
    "C19_accepts_only_encodings"
   ],
   "note": ""
  },
  {
   "property": "C20",
   "status": "proved",
   "theorems": [
    "C20_reference_runs",
    "C20_repeated_id_refuted",
    "C20_nested_set_refuted"
   ],
   "note": "Holds under the stated conditions; repeated ids and directly nested sets are refuted by objects."
  },
  {
   "property": "C21",
   "status": "proved",
   "theorems": [
    "C21_mapping_table_rule"
   ],
   "note": ""
  },
  {
   "property": "C22",
   "status": "proved",
   "theorems": [
    "C22_resolvable_in_order",
    "C22_missing_reference_reported_refuted"
   ],
   "note": "Completeness refuted by an accepted object; the order-preserving rule proved for every table."
  },
  {
   "property": "C23",
   "status": "proved",
   "theorems": [
    "C23_rule",
    "C23_first_reference",
    "C23_second_tag_refuted"
   ],
   "note": "The rule (a tag gets the definition at its own position in the definition references) is proved for all tags; that the second tag set of an object reads the right definition is refuted."
  },
  {
   "property": "C24",
   "status": "proved",
   "theorems": [
    "C24_utf16_roundtrip",
    "C24_utf16_stops_at_nul",
    "C24_utf16_complete"
   ],
   "note": ""
  },
  {
   "property": "C25",
   "status": "proved",
   "theorems": [
    "C25_names",
    "C25_one_order",
    "C25_no_name_lost",
    "C25_no_neighbours_equal",
    "C25_unnumbered",
    "C25_unique_refuted"
   ],
   "note": "Order, stability and completeness proved; uniqueness of names refuted by a table of contents."
  },
  {
   "property": "C26",
   "status": "proved",
   "theorems": [
    "C26_confined",
    "C26_exactly",
    "C26_otherwise_invalid",
    "C26_rejects"
   ],
   "note": "The sanitiser crate is an arbitrary function and canonicalisation an arbitrary partial function of the path."
  },
  {
   "property": "C27",
   "status": "proved",
   "theorems": [
    "C27_terminates",
    "C27_without_links",
    "C27_terminates_refuted",
    "C27_exponential"
   ],
   "note": "Termination proved for file systems where paths below the notebook have bounded length (every finite tree without links); refuted with links."
  },
  {
   "property": "C28",
   "status": "proved",
   "theorems": [
    "C28_notebook",
    "C28_not_a_toc",
    "C28_section",
    "C28_not_a_section",
    "C28_buffer",
    "C28_buffer_not_a_section",
    "C28_not_both"
   ],
   "note": ""
  },
  {
   "property": "C29",
   "status": "proved",
   "theorems": [
    "C29_display_name",
    "C29_unique",
    "C29_one_suffix_refuted"
   ],
   "note": "Rule and uniqueness proved; removal of a single suffix refuted by a file."
  },
  {
   "property": "C30",
   "status": "proved",
   "theorems": [
    "C30_section",
    "C30_one_result",
    "C30_enough_fuel",
    "C30_nothing_missing"
   ],
   "note": "Equivalence of the section reader with the relational document description SpecDoc.v, independence of fuel, and no dangling reference in any result."
  },
  {
   "property": "C31",
   "status": "proved",
   "theorems": [
    "C31_terminates",
    "C31_section_terminates",
    "C31_loop_gives_no_result",
    "C31_termination_refuted",
    "C31_toc_terminates",
    "C31_toc_loop_gives_no_result",
    "C31_toc_termination_refuted"
   ],
   "note": "Termination bound proved for loop-free spaces; an element that contains itself recurses at every fuel (file)."
  },
  {
   "property": "C32",
   "status": "proved",
   "theorems": [
    "C32_panics_exactly",
    "C32_no_hang",
    "C32_format",
    "C32_error_refuted"
   ],
   "note": "Exact crash condition proved; the expectation of an error is refuted by an object."
  },
  {
   "property": "C33",
   "status": "proved",
   "theorems": [
    "C33_panics_exactly",
    "C33_no_hang",
    "C33_kth_reference",
    "C33_error_refuted"
   ],
   "note": "Exact crash condition and pairing proved; expectation of an error refuted by a file."
  },
  {
   "property": "C34",
   "status": "proved",
   "theorems": [
    "C34_points",
    "C34_returns",
    "C34_both_dimensions",
    "C34_ink"
   ],
   "note": "Equivalence with a positional description; floats via SpecFloat."
  },
  {
   "property": "C35",
   "status": "proved",
   "theorems": [
    "C35_scale_rule",
    "C35_vertical_scale_refuted",
    "C35_pen_rule",
    "C35_pen_size_refuted"
   ],
   "note": "Actual identifiers read are proved; the expectation is refuted by objects."
  },
  {
   "property": "C36",
   "status": "proved",
   "theorems": [
    "C36_types",
    "C36_simple_accepted",
    "C36_page_size_refuted",
    "C36_extension_refuted",
    "C36_untyped_flags"
   ],
   "note": "Declared types proved per node; three refutations."
  },
  {
   "property": "C37",
   "status": "proved",
   "theorems": [
    "C37_file_bytes",
    "C37_image_bytes",
    "C37_file",
    "C37_image"
   ],
   "note": "From bytes of the package to reported bytes."
  },
  {
   "property": "C38",
   "status": "proved",
   "theorems": [
    "C38_paragraph",
    "C38_formats",
    "C38_text"
   ],
   "note": "Equivalence with text_is of SpecDoc.v and its consequences."
  },
  {
   "property": "C39",
   "status": "proved",
   "theorems": [
    "C39_title_text",
    "C39_none",
    "C39_never_empty"
   ],
   "note": ""
  },
  {
   "property": "C40",
   "status": "proved",
   "theorems": [
    "C40_color",
    "C40_color_ref"
   ],
   "note": ""
  },
  {
   "property": "C41",
   "status": "proved",
   "theorems": [
    "C41_charset",
    "C41_paragraph_alignment",
    "C41_page_size",
    "C41_note_tag_shape",
    "C41_math_object_type",
    "C41_revision_role",
    "C41_change_frequency",
    "C41_action_item_type",
    "C41_action_item_status",
    "C41_note_tag_status",
    "C41_layout_alignment"
   ],
   "note": "Codes are the documented tables of SpecValues.v; layout alignment, item status and tag status are bit fields."
  },
  {
   "property": "C42",
   "status": "proved",
   "theorems": [
    "C42_columns",
    "C42_column_count_refuted"
   ],
   "note": "Column rule proved; column count agreement refuted."
  },
  {
   "property": "C43",
   "status": "proved",
   "theorems": [
    "C43_nesting_needs_bytes",
    "C43_nesting_limit_refuted"
   ],
   "note": "Stack exhaustion itself is outside the model; the unbounded recursion depth is what is proved."
  },
  {
   "property": "C44",
   "status": "proved",
   "theorems": [
    "C44_store_contents"
   ],
   "note": ""
  },
  {
   "property": "C45",
   "status": "proved",
   "theorems": [
    "C45_incomplete_group_contributes_nothing",
    "C45_mismatch_reported_refuted"
   ],
   "note": "Expectation refuted; completeness of every contributing group proved."
  },
  {
   "property": "C46",
   "status": "proved",
   "theorems": [
    "C46_space_runs",
    "C46_repeated_compact_id_refuted"
   ],
   "note": "Holds for distinct compact ids; refuted otherwise."
  },
  {
   "property": "C47",
   "status": "proved",
   "theorems": [
    "C47_checkable"
   ],
   "note": ""
  },
  {
   "property": "C48",
   "status": "proved",
   "theorems": [
    "C48_section",
    "C48_section_metadata",
    "C48_page_series",
    "C48_page",
    "C48_page_metadata",
    "C48_page_manifest",
    "C48_title",
    "C48_embedded_file_container",
    "C48_embedded_file",
    "C48_picture_container",
    "C48_iframe",
    "C48_image",
    "C48_embedded_ink",
    "C48_ink_container",
    "C48_ink_data",
    "C48_ink_stroke",
    "C48_stroke_properties",
    "C48_math",
    "C48_tag_definition",
    "C48_number_list",
    "C48_paragraph_style",
    "C48_rich_text",
    "C48_outline_element",
    "C48_outline_group",
    "C48_outline",
    "C48_table_cell",
    "C48_table",
    "C48_table_row",
    "C48_table_of_contents"
   ],
   "note": "One equivalence per node kind against SpecNodes.v, which names the property identifiers as literals."
  },
  {
   "property": "C49",
   "status": "proved",
   "theorems": [
    "C49_nodes_return"
   ],
   "note": "All node readers; list format excepted through C32."
  },
  {
   "property": "C50",
   "status": "proved",
   "theorems": [
    "C50_only_crashes",
    "C50_notebook"
   ],
   "note": "Composes C10, C32, C33 over the whole section reader."
  },
  {
   "property": "C51",
   "status": "proved",
   "theorems": [
    "C51_notebook"
   ],
   "note": ""
  },
  {
   "property": "C52",
   "status": "proved",
   "theorems": [
    "C52_depends_only",
    "C52_inside_refuted"
   ],
   "note": "Non-interference proved; containment of all reads refuted by a linked table of contents of a section group."
  },
  {
   "property": "C53",
   "status": "proved",
   "theorems": [
    "C53_bare_file_name",
    "C53_relative_path_refuted"
   ],
   "note": "Whether the empty path has a canonical form is a hypothesis about the operating system; equivalence of relative and absolute paths refuted."
  },
  {
   "property": "C54",
   "status": "proved",
   "theorems": [
    "C54_file_is_buffer",
    "C54_whole_path_refuted"
   ],
   "note": "Equality proved for the last path component; refuted for the whole path."
  },
  {
   "property": "C55",
   "status": "proved",
   "theorems": [
    "C55_package_accepted",
    "C55_package_accepts",
    "C55_file_accepted",
    "C55_file_accepts",
    "C55_format_within",
    "C55_only_format_refuted"
   ],
   "note": "Acceptance characterised in both directions; containment in the format proper refuted by a serial number introduced by another nonzero byte."
  },
  {
   "property": "C56",
   "status": "proved",
   "theorems": [
    "C56_answer_is_final",
    "C56_section_cut",
    "C56_notebook"
   ],
   "note": "Composes C08/C09 with the store and the document; proved for sections and notebooks."
  },
  {
   "property": "C57",
   "status": "proved",
   "theorems": [
    "C57_stages",
    "C57_section_file",
    "C57_notebook",
    "C57_toc"
   ],
   "note": "Stage theorem and exclusion proved; every kind witnessed by bytes or a file system."
  },
  {
   "property": "C58",
   "status": "proved",
   "theorems": [
    "C58_section",
    "C58_page",
    "C58_toc",
    "C58_file_name"
   ],
   "note": "Monotonicity in the store for successful reads; independence of the file name for all outcomes."
  },
  {
   "property": "C59",
   "status": "proved",
   "theorems": [
    "C59_encoding",
    "C59_content",
    "C59_notebook",
    "C59_ambiguous_refuted"
   ],
   "note": "Content is that of the accepted language of C55; order independence proved for unambiguous content and refuted otherwise."
  },
  {
   "property": "C60",
   "status": "proved",
   "theorems": [
    "C60_section",
    "C60_page",
    "C60_toc"
   ],
   "note": "Values with references are excluded: they take part in the assignment of the object's reference list, so adding one also adds entries to that list."
  },
  {
   "property": "C61",
   "status": "proved",
   "theorems": [
    "C61_read",
    "C61_written",
    "C61_round_trip"
   ],
   "note": "Descriptions with a base revision, repeated entries of an object or a second index are not of this form; C15-C18 and C70 speak about them."
  },
  {
   "property": "C62",
   "status": "proved",
   "theorems": [
    "C62_page_bound",
    "C62_shared_refuted"
   ],
   "note": "C62_shared_refuted shows that sharing makes the output exponential in the number of objects; the code has no limit or cache."
  },
  {
   "property": "C63",
   "status": "proved",
   "theorems": [
    "C63_round_trip"
   ],
   "note": "The limit 2^21 keeps every list and text well within the length fields of the format; nothing else depends on it."
  },
  {
   "property": "C64",
   "status": "proved",
   "theorems": [
    "C64_section_valid",
    "C64_section_file_valid",
    "C64_exact",
    "C64_notebook_valid"
   ],
   "note": "C64_exact combines this with C63."
  },
  {
   "property": "C65",
   "status": "proved",
   "theorems": [
    "C65_round_trip",
    "C65_any_names",
    "C65_exact"
   ],
   "note": "C65_exact combines this with C64."
  },
  {
   "property": "C66",
   "status": "proved",
   "theorems": [
    "C66_section",
    "C66_determined",
    "C66_notebook",
    "C66_merged_refuted"
   ],
   "note": "Equivariance of the whole reader under a bijection of identifiers (SpecRename.v says how the elements of a file are renamed); iteration orders are carried over. C66_merged_refuted shows that the replacement must be one-to-one."
  },
  {
   "property": "C67",
   "status": "proved",
   "theorems": [
    "C67_section",
    "C67_section_file",
    "C67_notebook",
    "C67_more"
   ],
   "note": "The bounds are the fuel of the model; the Rust code has none. Monotonicity of every recursive function in its fuel, for results, errors and panics alike."
  },
  {
   "property": "C68",
   "status": "proved",
   "theorems": [
    "C68_cause",
    "C68_whole_or_nothing",
    "C68_section_cause",
    "C68_section_prevented",
    "C68_toc_missing",
    "C68_not_a_section",
    "C68_not_a_toc"
   ],
   "note": "SpecBlame.v lists the problems without reference to the reader: 'no store is in the file', 'no section is described by the store' and so on. Entries that do not exist and the recycle bin are not listed and cause no error."
  },
  {
   "property": "C69",
   "status": "proved",
   "theorems": [
    "C69_notebook",
    "C69_section",
    "C69_nothing_else",
    "C69_panics"
   ],
   "note": "Cli.v models the whole program. The text printed for a value is not modelled, nor are arguments that are not Unicode (C96)."
  },
  {
   "property": "C70",
   "status": "proved",
   "theorems": [
    "C70_read",
    "C70_latest",
    "C70_roots",
    "C70_fits",
    "C70_section",
    "C70_notebook",
    "C70_flat",
    "C70_interrupted",
    "C70_written"
   ],
   "note": "SpecHistory.v: save, after and holds_history, without reference to the reader. Roots: a role declared again by a later save keeps its first declaration, since the reader walks from the newest revision to the oldest and each declaration it meets replaces the one before. The header space has one revision."
  },
  {
   "property": "C71",
   "status": "proved",
   "theorems": [
    "C71_whole",
    "C71_times",
    "C71_minus",
    "C71_scale",
    "C71_path",
    "C71_order",
    "C71_order_y"
   ],
   "note": "SpecSingle.v: what a 32-bit number is worth (a rational) and what the closest one is, without reference to rounding algorithms. The model computes with Coq's SpecFloat at precision 24, emax 128; this property proves that computation correct, so only the claim that the target machine follows IEEE 754 is left to trust. The source multiplies by 1.0 when there is no scale; that is shown to change nothing."
  },
  {
   "property": "C72",
   "status": "proved",
   "theorems": [
    "C72_pages",
    "C72_all_or_nothing",
    "C72_page",
    "C72_others",
    "C72_readable"
   ],
   "note": "SpecLocal.v: histories that differ in some spaces, the spaces a section lists, places. C72_all_or_nothing records a limitation a user may not expect: pages that could be read are not returned when another page of the section fails."
  },
  {
   "property": "C73",
   "status": "proved",
   "theorems": [
    "C73_still",
    "C73_unchanged",
    "C73_section",
    "C73_seen",
    "C73_one_moment_refuted"
   ],
   "note": "Timed.v is mod.rs as a program asking one question after the other. C73_one_moment_refuted exhibits the two effects of a rename. Opening and reading one file is one access; so is listing one directory."
  },
  {
   "property": "C74",
   "status": "proved",
   "theorems": [
    "C74_inside",
    "C74_elsewhere",
    "C74_links",
    "C74_race_refuted"
   ],
   "note": "C74_race_refuted: the containment check of resolve_entry_path and the opening of the file are separate accesses."
  },
  {
   "property": "C75",
   "status": "proved",
   "theorems": [
    "C75_crash",
    "C75_ends",
    "C75_ends_refuted"
   ],
   "note": "C75_ends_refuted: a new section group is created inside the innermost one before every access."
  },
  {
   "property": "C76",
   "status": "proved",
   "theorems": [
    "C76_result",
    "C76_moments",
    "C76_ends",
    "C76_apart",
    "C76_still"
   ],
   "note": "A thread is a program of Timed.v; the only shared thing is the file system, which the programs cannot change. That the code has no other shared state (no statics, no interior mutability) was checked by reading."
  },
  {
   "property": "C77",
   "status": "proved",
   "theorems": [
    "C77_only",
    "C77_readable",
    "C77_all_or_nothing"
   ],
   "note": "SpecOthers.v. C77_all_or_nothing records a limitation a user may not expect."
  },
  {
   "property": "C78",
   "status": "proved",
   "theorems": [
    "C78_same_notebook",
    "C78_same_section",
    "C78_same_buffer",
    "C78_first_cause",
    "C78_named",
    "C78_not_a_toc",
    "C78_not_a_section",
    "C78_toc_missing",
    "C78_section",
    "C78_buffer",
    "C78_name"
   ],
   "note": "Report.v repeats mod.rs with the contents of errors; C78_same_* show that it is the model of the other claims without them. Paths are compared by components; the conversion to text (to_string_lossy) is not modelled."
  },
  {
   "property": "C79",
   "status": "proved",
   "theorems": [
    "C79_one_file_each",
    "C79_order",
    "C79_described",
    "C79_one_description",
    "C79_stops"
   ],
   "note": "A section listed in two ways is opened twice; the example shows it. Failing means that the file or directory cannot be read or that the container cannot be opened."
  },
  {
   "property": "C80",
   "status": "proved",
   "theorems": [
    "C80_names",
    "C80_below",
    "C80_refused",
    "C80_parent_refused",
    "C80_links",
    "C80_answers",
    "C80_same_on_unix",
    "C80_unix_refuses",
    "C80_any_sanitiser_refuted"
   ],
   "note": "C80_any_sanitiser_refuted: without the sanitiser's contract the name 'a/C:x' stands for 'C:x', outside the directory; only the check of canonical paths is left then."
  },
  {
   "property": "C81",
   "status": "proved",
   "theorems": [
    "C81_decided",
    "C81_exguid",
    "C81_ended_early",
    "C81_layout_cause",
    "C81_layout_error"
   ],
   "note": "'whole' is stated with the container reader, whose language C55 gives."
  },
  {
   "property": "C82",
   "status": "proved",
   "theorems": [
    "C82_space",
    "C82_file",
    "C82_store",
    "C82_page",
    "C82_shared"
   ],
   "note": "C62 gives the exponential case of pages whose objects are listed twice."
  },
  {
   "property": "C83",
   "status": "proved",
   "theorems": [
    "C83_cause",
    "C83_prevented",
    "C83_only",
    "C83_none",
    "C83_toc",
    "C83_toc_prevented",
    "C83_character",
    "C83_short",
    "C83_short_guid"
   ],
   "note": "C68 and C78 give the same causes for files and notebooks on disk."
  },
  {
   "property": "C84",
   "status": "proved",
   "theorems": [
    "C84_opens",
    "C84_cause",
    "C84_only",
    "C84_endless",
    "C84_section"
   ],
   "note": "Taking a file apart is C55, C56 and C81; what follows opening is C83, and C84_section puts the three together."
  },
  {
   "property": "C85",
   "status": "proved",
   "theorems": [
    "C85_read",
    "C85_crash",
    "C85_ends",
    "C85_steps",
    "C85_only_crash",
    "C85_only_round",
    "C85_only_fault",
    "C85_toc"
   ],
   "note": "The faults are those of C83, opening is C84. A list that makes the reading crash is no fault; this was sharpened in C83's list of faults. On a real machine a reading without end exhausts the stack."
  },
  {
   "property": "C86",
   "status": "proved",
   "theorems": [
    "C86_read",
    "C86_section",
    "C86_crash",
    "C86_ends",
    "C86_levels",
    "C86_only_crash",
    "C86_only_endless",
    "C86_only_trouble"
   ],
   "note": "What can be wrong is listed in C68 (with C83 and C84 for the inside of files), crashes and circles in C85. The file system does not change during the call (C73-C75 are about one that does). On a real machine a reading without end exhausts the stack."
  },
  {
   "property": "C87",
   "status": "proved",
   "theorems": [
    "C87_cause",
    "C87_crash",
    "C87_ends",
    "C87_still",
    "C87_one_moment_refuted"
   ],
   "note": "Only from the error to its reason: under changes a reason at one moment need not lead to an error. Moments are the questions of the run, as in C73-C75."
  },
  {
   "property": "C88",
   "status": "proved",
   "theorems": [
    "C88_read",
    "C88_refused",
    "C88_bound",
    "C88_written",
    "C88_round",
    "C88_different",
    "C88_stored",
    "C88_literals"
   ],
   "note": "Uuid::parse_str and UpperHex of the uuid crate are modelled from their documentation."
  },
  {
   "property": "C89",
   "status": "proved",
   "theorems": [
    "C89_section",
    "C89_opened",
    "C89_file",
    "C89_notebook",
    "C89_each",
    "C89_ends_refuted"
   ],
   "note": "Lifts C15 from the store to the API. Ok and Panic agree in both directions; error kinds can differ (C15_error_kind_refuted) and so can rejecting versus not ending (C89_ends_refuted)."
  },
  {
   "property": "C90",
   "status": "proved",
   "theorems": [
    "C90_depth",
    "C90_section",
    "C90_levels",
    "C90_objects",
    "C90_bytes",
    "C90_decides",
    "C90_file",
    "C90_notebook",
    "C90_limit_refuted"
   ],
   "note": "Stack use is counted in open calls of the recursive functions (the fuel of the model), not in bytes of stack. Folder depth of a notebook is a separate number (C27)."
  },
  {
   "property": "C91",
   "status": "proved",
   "theorems": [
    "C91_section",
    "C91_file",
    "C91_notebook",
    "C91_64",
    "C91_64_file",
    "C91_64_notebook",
    "C91_checked",
    "C91_checked_file",
    "C91_checked_notebook",
    "C91_truncated_refuted",
    "C91_references_refuted"
   ],
   "note": "C91_section, C91_file, C91_notebook: any target. C91_64*: 64-bit targets. The two refuted theorems show that the conditions are needed on 32-bit targets. Files that do not fit into the memory of the target are outside of the model."
  },
  {
   "property": "C92",
   "status": "proved",
   "theorems": [
    "C92_container_result",
    "C92_object_result",
    "C92_open_result",
    "C92_container",
    "C92_object",
    "C92_open",
    "C92_cubic"
   ],
   "note": "C92_container, C92_object, C92_open: the bounds. The three _result theorems: the counted functions have the results of the functions of the model, so the bounds are about the same program. Not counted: comparisons and hash table operations between two steps (a bounded number each), and the work after the store is opened."
  },
  {
   "property": "C93",
   "status": "proved",
   "theorems": [
    "C93_notebook",
    "C93_section",
    "C93_spelling",
    "C93_directory",
    "C93_entry"
   ],
   "note": "C93_notebook, C93_section: the functions on texts give the results of the functions on components. C93_spelling: the consequence. C93_directory and C93_entry need nothing of the operating system. Texts are Unicode, not arbitrary bytes. std::path of Unix is modelled from its documentation and source, as an assumption about the standard library."
  },
  {
   "property": "C94",
   "status": "proved",
   "theorems": [
    "C94_same",
    "C94_contents",
    "C94_contents_buffer",
    "C94_named",
    "C94_named_section",
    "C94_display",
    "C94_display_section",
    "C94_kind"
   ],
   "note": "C94_same and C94_contents tie the functions that make texts to C93 and C78. C94_named, C94_named_section: the place of the path. C94_display, C94_display_section, C94_kind: the text determines the error. The message of an error made below mod.rs and the text of an io::Error are arbitrary (detail). Paths are Unicode texts, for which to_string_lossy is the identity."
  },
  {
   "property": "C95",
   "status": "proved",
   "theorems": [
    "C95_unicode",
    "C95_unicode_buffer",
    "C95_entry",
    "C95_errors",
    "C95_errors_section",
    "C95_decode"
   ],
   "note": "C95_unicode, C95_unicode_buffer: equality with the functions on texts, including errors. C95_entry, C95_errors, C95_errors_section: any bytes. C95_decode: to_str and to_string_lossy. UTF-8 decoding (str::from_utf8, String::from_utf8_lossy) is modelled from the source of the standard library."
  },
  {
   "property": "C96",
   "status": "proved",
   "theorems": [
    "C96_prints",
    "C96_usage",
    "C96_rest",
    "C96_no_error",
    "C96_unicode"
   ],
   "note": "C96_prints and C96_usage: exactly when it prints; C96_rest; C96_no_error; C96_unicode: on Unicode arguments and files it is the program of C69. The text println! makes of the value (Debug) is not modelled."
  },
  {
   "property": "C97",
   "status": "proved",
   "theorems": [
    "C97_same",
    "C97_unless_refused",
    "C97_section",
    "C97_section_exact",
    "C97_inside",
    "C97_terminates",
    "C97_same_refuted"
   ],
   "note": "C97_same, C97_unless_refused, C97_section: the same as on Unix (where C25-C29 and C51 say what is parsed); C97_inside: as C52, C97_terminates: as C27, on Windows. same_directory, spells and walike_inside are in SpecWinNotebook.v. Paths beginning with two separators (servers, verbatim paths) are left out for the given path; canonical paths may have them."
  },
  {
   "property": "C98",
   "status": "proved",
   "theorems": [
    "C98_same",
    "C98_only",
    "C98_parts",
    "C98_page",
    "C98_section",
    "C98_reached",
    "C98_shared_refuted"
   ],
   "note": "C98_same ties the functions of Looks.v to those of Doc.v; C98_only says the list of look-ups is complete; C98_parts, C98_page, C98_section: how many. Decoding the properties of an object that was found is not counted; the work of opening the store is C92. tree is C62's. C98_reached: the fourth power cannot be lowered; its file lists a series k times, the series a page k times, the page k drawings and these one list of k strokes (tree forbids none of this: series, pages and strokes are not parts in its sense)."
  },
  {
   "property": "C99",
   "status": "proved",
   "theorems": [
    "C99_section",
    "C99_notebook",
    "C99_notebook_color",
    "C99_groups"
   ],
   "note": "C99_section and C99_notebook. SpecGetters.v lists for each type the property ids and value relations (those of SpecNodes.v); which object an item stems from, beyond kind and values, and the order of lists are C30; which numbers make up a point is C34. The exchanged width and height of strokes are reported as they are (C35)."
  },
  {
   "property": "C100",
   "status": "proved",
   "theorems": [
    "C100_brought",
    "C100_look",
    "C100_section",
    "C100_reached",
    "C100_points",
    "C100_shared_refuted"
   ],
   "note": "C100_brought holds without any assumption about the file; C100_section adds the trees of C62 and the count of look-ups of C98. Characters are Unicode scalar values (up to four bytes each in memory). C100_reached and C100_shared_refuted show that neither the power nor the assumption can be improved."
  },
  {
   "property": "C101",
   "status": "proved",
   "theorems": [
    "C101_names",
    "C101_entries",
    "C101_sections",
    "C101_reached",
    "C101_opened",
    "C101_asked",
    "C101_size",
    "C101_shared_refuted",
    "C101_nested_refuted"
   ],
   "note": "The two refuted theorems say that the bound on the entries needs the table of contents to be a tree, and that the bound on the sections must grow with the depth."
  }
 ]
}