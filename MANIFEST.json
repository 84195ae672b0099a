{
 "claims": [
  {
   "property": "C01",
   "status": "proved",
   "theorems": [
    "C01_pieces_within_limit"
   ],
   "note": "Proved for every text and every limit."
  },
  {
   "property": "C02",
   "status": "partial",
   "theorems": [
    "C02_split_keeps_letters_partial",
    "C02_split_keeps_letters_refuted",
    "C02_short_fields_refuted",
    "C02_last_word_always_lost"
   ],
   "note": "False in general (refuted: words of over-long sentences are lost; below 50 characters everything is lost). Proved when every sentence fits the limit; the loss of the last word of an over-long sentence is proved systematic."
  },
  {
   "property": "C03",
   "status": "proved",
   "theorems": [
    "C03_enum_accepts_exactly_members",
    "C03_list_enum_accepts_exactly_members",
    "C03_enum_history_only_members",
    "C03_list_enum_history_only_members"
   ],
   "note": "Proved for every enumeration, value and history."
  },
  {
   "property": "C04",
   "status": "proved",
   "theorems": [
    "C04_list_enum_first_occurrences",
    "C04_accepted_total",
    "C04_first_occurrences_meaning"
   ],
   "note": "Proved against the inductive first-occurrence specification."
  },
  {
   "property": "C05",
   "status": "proved",
   "theorems": [
    "C05_coded_integers",
    "C05_digit_integers",
    "C05_integer_inputs"
   ],
   "note": "Proved for all values accepted by int() (integers, booleans, floats, decimal strings incl. Unicode digits)."
  },
  {
   "property": "C06",
   "status": "partial",
   "theorems": [
    "C06_percent_range_partial",
    "C06_percent_range_refuted"
   ],
   "note": "Full claim refuted by NaN; proved for every other float."
  },
  {
   "property": "C07",
   "status": "partial",
   "theorems": [
    "C07_anything_after_refuted",
    "C07_uuid_field_exact",
    "C07_whole_field_refuted"
   ],
   "note": "Exact characterisation proved; the reading 'the whole field is a UUID' is refuted (suffixes are accepted)."
  },
  {
   "property": "C08",
   "status": "proved",
   "theorems": [
    "C08_bounded_text_never_truncated",
    "C08_single_value_text_keeps_last"
   ],
   "note": "Proved for every history, separator, bound and option setting."
  },
  {
   "property": "C09",
   "status": "proved",
   "theorems": [
    "C09_review_date_is_latest"
   ],
   "note": "Proved for every parser of ISO dates (datetime.fromisoformat is a parameter)."
  },
  {
   "property": "C10",
   "status": "proved",
   "theorems": [
    "C10_one_text_per_language",
    "C10_specification_determines"
   ],
   "note": "Proved for every history, language list, text class and limit setting; the specification is proved to determine the output."
  },
  {
   "property": "C11",
   "status": "partial",
   "theorems": [
    "C11_no_blank_entry_partial",
    "C11_no_blank_when_limits_ignored",
    "C11_no_blank_entry_refuted",
    "C11_no_blank_entry_long_field_refuted"
   ],
   "note": "Refuted (an over-long text can be split into an empty piece, in short and in long fields). Proved: an emitted entry is blank only if it is a piece of an over-long text; never when limits are ignored."
  },
  {
   "property": "C12",
   "status": "partial",
   "theorems": [
    "C12_indexed_in_numeric_order",
    "C12_texts_in_numeric_order_partial",
    "C12_texts_in_numeric_order_refuted"
   ],
   "note": "Proved for number-indexed fields. For text-and-image fields proved when all indexes have the same number of digits; refuted otherwise (index 10 comes before 2)."
  },
  {
   "property": "C13",
   "status": "proved",
   "theorems": [
    "C13_reading_changes_nothing"
   ],
   "note": "Proved for all eight field kinds and every interleaving of additions and reads."
  },
  {
   "property": "C14",
   "status": "partial",
   "theorems": [
    "C14_named_texts_distinct_partial",
    "C14_history_total",
    "C14_named_texts_distinct_refuted"
   ],
   "note": "Stored names are proved distinct; emitted names are distinct when all texts fit. Refuted for every limit >= 101: an over-long text is emitted twice under its name."
  },
  {
   "property": "C15",
   "status": "proved",
   "theorems": [
    "C15_only_schema_fields",
    "C15_unknown_field_rejected"
   ],
   "note": "Proved for every schema universe: all structures reachable by any sequence of operations; unknown names are refused and nothing changes."
  },
  {
   "property": "C16",
   "status": "proved",
   "theorems": [
    "C16_unique_fields_hold_one_value",
    "C16_second_value_rejected"
   ],
   "note": "Proved for every reachable structure."
  },
  {
   "property": "C17",
   "status": "partial",
   "theorems": [
    "C17_failed_assignment_atomic_partial",
    "C17_failed_list_keeps_prefix",
    "C17_failed_assignment_atomic_refuted",
    "C17_failed_path_assignment_refuted"
   ],
   "note": "Full statement refuted (a failed list assignment keeps the items before the failing one; a failed path assignment leaves created parents). Proved: atomic for a single value; prefix semantics for lists."
  },
  {
   "property": "C18",
   "status": "proved",
   "theorems": [
    "C18_mandatory_fields_enforced",
    "C18_lavoisier_documents"
   ],
   "note": "Proved as an equivalence: get_dict succeeds iff all mandatory fields of all parts are present and every validator ends well (and orders are comparable)."
  },
  {
   "property": "C19",
   "status": "proved",
   "theorems": [
    "C19_document_fields_in_order"
   ],
   "note": "Proved."
  },
  {
   "property": "C20",
   "status": "proved",
   "theorems": [
    "C20_normalised_list",
    "C20_members_kept"
   ],
   "note": "Proved for every parsed value and option setting."
  },
  {
   "property": "C21",
   "status": "proved",
   "theorems": [
    "C21_conversion_reversible",
    "C21_either_case"
   ],
   "note": "Proved for every 128-bit identifier spelling (either letter case) and every block cipher; AES is an arbitrary parameter."
  },
  {
   "property": "C22",
   "status": "proved",
   "theorems": [
    "C22_identifiers_never_merged",
    "C22_only_spellings_merged"
   ],
   "note": "Proved for every pair of identifiers; two spellings of the same identifier (letter case, hyphen placement) are the only merges."
  },
  {
   "property": "C23",
   "status": "proved",
   "theorems": [
    "C23_converted_identifier_shape"
   ],
   "note": "Proved for every identifier and every block cipher."
  },
  {
   "property": "C24",
   "status": "proved",
   "theorems": [
    "C24_reports_exactly_requested",
    "C24_reports_were_requested",
    "C24_path_restored"
   ],
   "note": "Proved for every element tree with XML names and every key set; iterparse is modelled by the event sequence of the tree."
  },
  {
   "property": "C25",
   "status": "partial",
   "theorems": [
    "C25_tails_refuted",
    "C25_namespaces_refuted",
    "C25_content_kept_partial",
    "C25_nothing_invented",
    "C25_content_kept_refuted"
   ],
   "note": "Refuted (attributes sharing a local name are merged; text after a child is dropped). Proved for elements whose attributes have distinct local names: attributes, leading text and children are all kept, and nothing is invented."
  },
  {
   "property": "C26",
   "status": "proved",
   "theorems": [
    "C26_existing_outputs_kept",
    "C26_name_is_free"
   ],
   "note": "The search for a free name is modelled with fuel; one step more than the number of files always suffices. At the level of whole runs, successful or not, files already in the output folder keep their content (log files are not modelled)."
  },
  {
   "property": "C27",
   "status": "proved",
   "theorems": [
    "C27_no_slash_in_names",
    "C27_names_say_what_they_name"
   ],
   "note": "Both get_filename methods."
  },
  {
   "property": "C28",
   "status": "proved",
   "theorems": [
    "C28_each_file_once_last_marked",
    "C28_folder_delivered"
   ],
   "note": "Both the generic delivery of a list and its use on an EcoSpold2 folder."
  },
  {
   "property": "C29",
   "status": "partial",
   "theorems": [
    "C29_to_file_one_output_per_file",
    "C29_database_one_report_per_batch",
    "C29_archive_complete_partial",
    "C29_all_documents_written_refuted",
    "C29_same_identifier_refuted",
    "C29_last_refuted"
   ],
   "note": "Format-dependent parts are parameters. Refuted for archives with two data sets of the same identifier (the first one is lost); everything else is proved."
  },
  {
   "property": "C30",
   "status": "partial",
   "theorems": [
    "C30_session_refuted",
    "C30_reuse_after_failure_refuted",
    "C30_no_leftovers_refuted",
    "C30_reuse_after_failure_partial",
    "C30_reuse_after_success"
   ],
   "note": "Refuted for every failing file that could be opened: afterwards no file of the same version converts, and data of the failed file may remain; in programs with several converters too, whatever settings are made in between. Proved for files that cannot be opened at all."
  },
  {
   "property": "C31",
   "status": "partial",
   "theorems": [
    "C31_options_hold_booleans_partial",
    "C31_options_hold_booleans_refuted"
   ],
   "note": "Refuted as stated: numbers equal to truth values are stored, and assigning the list of options removes the guard. Proved: every value held equals a truth value, and rejected assignments change nothing."
  },
  {
   "property": "C32",
   "status": "proved",
   "theorems": [
    "C32_request_accepted_exactly"
   ],
   "note": "Exact acceptance condition; file system answers are parameters."
  },
  {
   "property": "C33",
   "status": "partial",
   "theorems": [
    "C33_tables_round_trip",
    "C33_comment_facts_read_back_partial",
    "C33_inheritance_of_child_refuted",
    "C33_fields_read_back",
    "C33_access_partial",
    "C33_access_refuted",
    "C33_access_text_refuted"
   ],
   "note": "Tables and comment lines proved to round trip; refuted for the inheritance of a child data set and two of the four access restrictions."
  },
  {
   "property": "C34",
   "status": "partial",
   "theorems": [
    "C34_to_ilcd",
    "C34_to_ecospold_partial",
    "C34_every_ilcd_value_translated",
    "C34_every_ecs2_code_partial",
    "C34_codes_refuted"
   ],
   "note": "Proved for all tables but four values, which are shown to be refused by the target field (C34_codes_refuted)."
  },
  {
   "property": "C35",
   "status": "partial",
   "theorems": [
    "C35_lognormal_interval_partial",
    "C35_normal_interval_partial",
    "C35_bounds_enclose_partial",
    "C35_elementary_bounds_partial",
    "C35_negative_lognormal_refuted",
    "C35_bounds_exist"
   ],
   "note": "Proved over the reals (floats are not rounded) for the amounts of flows; refuted for negative lognormal amounts, whose minimum and maximum are swapped."
  },
  {
   "property": "C36",
   "status": "proved",
   "theorems": [
    "C36_variance_round_trip"
   ],
   "note": "Proved over the reals; triangular and uniform bounds are also shown to come back."
  },
  {
   "property": "C37",
   "status": "partial",
   "theorems": [
    "C37_physical_quantity_partial",
    "C37_reference_unit",
    "C37_sum_factor_refuted",
    "C37_to_keeps_quantity",
    "C37_to_factor_refuted",
    "C37_uncertainty_of_operations"
   ],
   "note": "Proved over the reals for products, quotients and changes to reference units; the factor is shown wrong after a sum and after a change to another unit."
  },
  {
   "property": "C38",
   "status": "partial",
   "theorems": [
    "C38_intermediate_scaled_partial",
    "C38_elementary_scaled_partial",
    "C38_mapping_factor_refuted",
    "C38_amount_outside_refuted"
   ],
   "note": "Proved for intermediate flows, for a mapping factor of 1 and for lognormal distributions; refuted for the other distributions when the factor is not 1."
  },
  {
   "property": "C39",
   "status": "proved",
   "theorems": [
    "C39_one_variable_per_name",
    "C39_every_name_has_a_variable"
   ],
   "note": "Names are unique in every document; every given name that does not look like a name of the converter has a variable."
  },
  {
   "property": "C40",
   "status": "proved",
   "theorems": [
    "C40_distinct_numbers"
   ],
   "note": "Proved for the exchanges that take part in the numbering (intermediate and mapped elementary ones)."
  },
  {
   "property": "C41",
   "status": "partial",
   "theorems": [
    "C41_versions_partial",
    "C41_version_texts_distinct",
    "C41_same_properties_partial",
    "C41_versions_refuted"
   ],
   "note": "Proved within one file and for runs in which a product always has the same properties; refuted for two files of one run with different properties, where the second data set overwrites the first."
  },
  {
   "property": "C42",
   "status": "partial",
   "theorems": [
    "C42_merge_to_ilcd_partial",
    "C42_merge_to_ecs2_partial",
    "C42_merge_succeeds_partial",
    "C42_sources_refuted",
    "C42_sources_kept"
   ],
   "note": "Proved in both directions that totals per flow are kept and every elementary flow is left once, and that merging succeeds for comparable amounts; false in general: merging an exchange without sources with one that has some aborts (C42_sources_refuted)."
  },
  {
   "property": "C43",
   "status": "proved",
   "theorems": [
    "C43_ids_distinct",
    "C43_ids_found",
    "C43_first_id"
   ],
   "note": "For every list of exchanges and every id function the ids given are pairwise different and every exchange gets one; the search ends when the id function is injective (hypothesis of C43_ids_found only)."
  },
  {
   "property": "C44",
   "status": "partial",
   "theorems": [
    "C44_groups_legal_partial",
    "C44_elementary_reference_refuted",
    "C44_other_kinds"
   ],
   "note": "Legal for all non-elementary kinds and for elementary flows that are not the reference; refuted: an elementary reference flow gets output group 0, which the elementary validator rejects."
  },
  {
   "property": "C45",
   "status": "partial",
   "theorems": [
    "C45_energy_vote_partial",
    "C45_explicit_undefined_refuted"
   ],
   "note": "Proved; refuted: an explicit 'undefined' is overruled and no heating value at all gives 'net'."
  },
  {
   "property": "C46",
   "status": "partial",
   "theorems": [
    "C46_file_resolution",
    "C46_result_exists",
    "C46_folder_refuted",
    "C46_converted_with_file_and_id"
   ],
   "note": "The order of resolution is proved for every folder; the result is a file of the folder listing. Refuted: the fallback may return the name of a directory."
  },
  {
   "property": "C47",
   "status": "partial",
   "theorems": [
    "C47_amounts_partial",
    "C47_succeeds_partial",
    "C47_same_unit_refuted",
    "C47_no_unit_refuted",
    "C47_energy_refuted"
   ],
   "note": "For exchanges without OpenLCA attributes: exact amounts for unmapped flows, flows without counterpart, flows in the source unit, and flows with the source unit as another property; success when all files are there. Refuted: the factor is ignored when the flow is measured in the target unit; when no unit fits, the flow is replaced but the amount kept, which happens for every flow in MJ."
  },
  {
   "property": "C48",
   "status": "partial",
   "theorems": [
    "C48_scaled_partial",
    "C48_negative_refuted",
    "C48_normal_refuted",
    "C48_undefined_refuted",
    "C48_lognormal_refuted"
   ],
   "note": "For triangular and uniform distributions. Refuted: the interval of a normal distribution is halved, the maximum of an undefined one is off by f(f-1)(min)/2, lognormal bounds are not scaled, a negative factor swaps the bounds."
  },
  {
   "property": "C49",
   "status": "partial",
   "theorems": [
    "C49_version_partial",
    "C49_version_refuted"
   ],
   "note": "Proved for a one-digit major release; refuted otherwise, and minor release and major revision are always lost."
  },
  {
   "property": "C50",
   "status": "partial",
   "theorems": [
    "C50_successive_files_independent_partial",
    "C50_outputs_independent_partial",
    "C50_successive_files_independent_refuted"
   ],
   "note": "Refuted: the default language of one file is used for a later file without one. Proved for mappings that only use what is prepared for each file."
  },
  {
   "property": "C51",
   "status": "proved",
   "theorems": [
    "C51_split_invents_nothing"
   ],
   "note": "Proved for every text without '<'."
  },
  {
   "property": "C52",
   "status": "partial",
   "theorems": [
    "C52_split_succeeds_partial",
    "C52_split_succeeds_refuted"
   ],
   "note": "Proved for every limit but 50; refuted for 50."
  },
  {
   "property": "C53",
   "status": "partial",
   "theorems": [
    "C53_anything_after_refuted",
    "C53_cas_after_refuted",
    "C53_version_field_exact",
    "C53_cas_field_exact",
    "C53_variable_name_exact",
    "C53_whole_value_refuted"
   ],
   "note": "Exact prefix characterisations proved; 'whole value' reading refuted."
  },
  {
   "property": "C54",
   "status": "partial",
   "theorems": [
    "C54_latitude_in_range_partial",
    "C54_longitude_refuted",
    "C54_south_pole_refuted"
   ],
   "note": "Latitude range proved; longitude range refuted (10;999 accepted) and completeness refuted (-90;0 rejected)."
  },
  {
   "property": "C55",
   "status": "proved",
   "theorems": [
    "C55_integer_list_keeps_all"
   ],
   "note": "Proved."
  },
  {
   "property": "C56",
   "status": "proved",
   "theorems": [
    "C56_boolean_field"
   ],
   "note": "Proved."
  },
  {
   "property": "C57",
   "status": "proved",
   "theorems": [
    "C57_synonyms_in_order"
   ],
   "note": "Proved."
  },
  {
   "property": "C58",
   "status": "proved",
   "theorems": [
    "C58_single_entry_fields"
   ],
   "note": "Proved."
  },
  {
   "property": "C59",
   "status": "proved",
   "theorems": [
    "C59_text_entries_accepted"
   ],
   "note": "Proved."
  },
  {
   "property": "C60",
   "status": "partial",
   "theorems": [
    "C60_name_limit_refuted"
   ],
   "note": "Refuted: names of any length are emitted (the limit of the name validator is never checked)."
  },
  {
   "property": "C61",
   "status": "partial",
   "theorems": [
    "C61_nested_class_partial",
    "C61_nested_class_refuted"
   ],
   "note": "Full statement refuted: an instance of another class is stored as it is. Proved for every value that is not an existing structure."
  },
  {
   "property": "C62",
   "status": "partial",
   "theorems": [
    "C62_reading_changes_nothing_partial",
    "C62_reading_changes_nothing_refuted"
   ],
   "note": "Full statement refuted: reading a unique nested field creates it, which can make get_dict fail on its mandatory fields. Proved for all other reads."
  },
  {
   "property": "C63",
   "status": "proved",
   "theorems": [
    "C63_field_reports_assigned_values",
    "C63_assignment_adds_the_values",
    "C63_building_is_assigning"
   ],
   "note": "Proved."
  },
  {
   "property": "C64",
   "status": "proved",
   "theorems": [
    "C64_other_fields_untouched"
   ],
   "note": "Proved."
  },
  {
   "property": "C65",
   "status": "proved",
   "theorems": [
    "C65_leaves_satisfy_their_field",
    "C65_identifiers_are_uuids"
   ],
   "note": "Proved for the transcribed schemas."
  },
  {
   "property": "C66",
   "status": "partial",
   "theorems": [
    "C66_among_others_refuted",
    "C66_required_text_partial",
    "C66_required_text_refuted"
   ],
   "note": "Refuted for the empty-value cases shown; the part that holds is proved."
  },
  {
   "property": "C67",
   "status": "partial",
   "theorems": [
    "C67_requested_attribute_reported_partial",
    "C67_requested_attribute_reported_refuted"
   ],
   "note": "Refuted for attributes in a namespace (xml:lang); proved for the key as the reader spells it."
  },
  {
   "property": "C68",
   "status": "partial",
   "theorems": [
    "C68_archive_processes_delivered_partial",
    "C68_archive_processes_delivered_refuted"
   ],
   "note": "Refuted for archives whose processes are in several folders or nested below the process folder; proved for archives with a single plain process folder."
  },
  {
   "property": "C69",
   "status": "partial",
   "theorems": [
    "C69_conversions_available_partial",
    "C69_conversions_available_refuted"
   ],
   "note": "Refuted for six of the nine pairs: accepted, but no version can be converted. The exact set of available conversions is proved."
  },
  {
   "property": "C70",
   "status": "partial",
   "theorems": [
    "C70_information_is_the_documents",
    "C70_references_are_the_documents",
    "C70_information_readable_partial",
    "C70_information_readable_refuted"
   ],
   "note": "Refuted for names without language and for flows described in several languages; otherwise proved."
  },
  {
   "property": "C71",
   "status": "partial",
   "theorems": [
    "C71_original_error_reported_partial",
    "C71_original_error_reported_refuted",
    "C71_delete_masks_refuted"
   ],
   "note": "Refuted when the clean-up itself fails (ILCD archive without processes, mapping without delete method); proved otherwise."
  },
  {
   "property": "C72",
   "status": "partial",
   "theorems": [
    "C72_names_carry_the_hash_partial",
    "C72_names_carry_the_hash_refuted"
   ],
   "note": "Refuted when two converters are used in turn; proved for a single converter."
  },
  {
   "property": "C73",
   "status": "partial",
   "theorems": [
    "C73_plain_text_untouched_partial",
    "C73_marks_in_free_text_refuted"
   ],
   "note": "Proved for texts without the marks; refuted for texts that contain one."
  },
  {
   "property": "C74",
   "status": "partial",
   "theorems": [
    "C74_one_tag_partial",
    "C74_more_tags_refuted"
   ],
   "note": "Proved for one tag; refuted for every list of two or more."
  },
  {
   "property": "C75",
   "status": "partial",
   "theorems": [
    "C75_only_identifiers_are_taken",
    "C75_parent_identifier_refuted",
    "C75_identifiers_read_back_partial"
   ],
   "note": "Only UUIDs are taken: proved. Reading back proved when other text follows, refuted otherwise."
  },
  {
   "property": "C76",
   "status": "proved",
   "theorems": [
    "C76_marked_lines_first"
   ],
   "note": "Proved, for the text model of C10."
  },
  {
   "property": "C77",
   "status": "partial",
   "theorems": [
    "C77_synonyms_partial",
    "C77_synonyms_refuted"
   ],
   "note": "Proved for synonyms without '; '; refuted for every synonym that contains it."
  },
  {
   "property": "C78",
   "status": "partial",
   "theorems": [
    "C78_model_vote_partial",
    "C78_original_model_partial",
    "C78_unknown_model_refuted"
   ],
   "note": "Vote and known original models proved; refuted for an unknown original model name."
  },
  {
   "property": "C79",
   "status": "partial",
   "theorems": [
    "C79_indexes_increase_partial",
    "C79_indexes_never_decrease",
    "C79_indexes_distinct_refuted"
   ],
   "note": "Never decreasing: proved. Distinct: proved for text indexes alone, refuted when both counters are used."
  },
  {
   "property": "C80",
   "status": "partial",
   "theorems": [
    "C80_included_activities_partial",
    "C80_start_alone_refuted"
   ],
   "note": "Proved for one-line descriptions given together; refuted when only the start is given."
  },
  {
   "property": "C81",
   "status": "partial",
   "theorems": [
    "C81_handlers_can_run_partial",
    "C81_dead_handlers_refuted",
    "C81_fields_lost_refuted",
    "C81_other_fields_read_partial"
   ],
   "note": "Documents of the shape given by the VALID tables; attributes of plain values are index, name or in a namespace. Handler can run exactly if not one of four. Refuted: paths .../quantitativeReference/type, .../@latituteAndLongitude, .../technologyApplicability and .../workflowAndPublication match nothing; documents differing only in the real fields and the commissioner (handler commented out) are read alike."
  },
  {
   "property": "C82",
   "status": "partial",
   "theorems": [
    "C82_uncertainty_scaled_partial",
    "C82_factor_of_amount",
    "C82_small_deviation_refuted",
    "C82_no_deviation_refuted"
   ],
   "note": "Proved for lognormal deviations of at least 1 and normal ones of at least 0; a smaller lognormal deviation is inverted and one of 0 stops the conversion."
  },
  {
   "property": "C83",
   "status": "partial",
   "theorems": [
    "C83_amount_round_trip_partial",
    "C83_rows_that_agree",
    "C83_mass_time_and_money_refuted",
    "C83_rows_without_unit_refuted"
   ],
   "note": "Proved for 13 of the 18 reference units; mass*time comes back 365.25 times too small, money 1.11 times, and three dimensions have no EcoSpold2 unit."
  },
  {
   "property": "C84",
   "status": "partial",
   "theorems": [
    "C84_distribution_kept",
    "C84_nothing_invented",
    "C84_foreign_text_refuted"
   ],
   "note": "float() and its printing are parameters (printing then reading gives the number). Values are not rescaled with the amount. Pedigree and comments of these distributions are not read back. Refuted: a hand-written line of this form with a part that is not name=value raises IndexError."
  },
  {
   "property": "C85",
   "status": "partial",
   "theorems": [
    "C85_pedigree_kept_partial",
    "C85_order_refuted",
    "C85_score_missing_refuted",
    "C85_exponent_refuted"
   ],
   "note": "Five one-digit scores in the standard order and a decimal variance, surrounding texts without the marks, fewer than 97 comments, one row per language. Refuted: kept exactly when the attributes come in the standard order; any other number of scores raises AttributeError; an exponent is cut off."
  },
  {
   "property": "C86",
   "status": "partial",
   "theorems": [
    "C86_comment_kept_partial",
    "C86_own_comment_refuted",
    "C86_separator_refuted",
    "C86_other_language_refuted"
   ],
   "note": "Without pedigree and without own English comments. Refuted: own comments of the exchange become part of the uncertainty comment, other languages are never read, with pedigree and variance a line with the separator stays."
  },
  {
   "property": "C87",
   "status": "partial",
   "theorems": [
    "C87_allocation_refuted",
    "C87_allocation_error",
    "C87_no_allocation_partial"
   ],
   "note": "Refuted for every document with the attributes of the schema; with the attribute that is read, the conversion stops with ValueError. What is left: exchanges without allocation."
  },
  {
   "property": "C88",
   "status": "partial",
   "theorems": [
    "C88_flow_unit_total_partial",
    "C88_dry_mass_total_partial",
    "C88_estimated_water_partial",
    "C88_mapping_factor_refuted",
    "C88_concentration_refuted"
   ],
   "note": "Proved for intermediate flows and properties per flow unit or per dry mass, and for the estimated water content; false for elementary flows with a mapping factor and for concentrations (refuted theorems)."
  },
  {
   "property": "C89",
   "status": "partial",
   "theorems": [
    "C89_functional_unit_refuted",
    "C89_functional_unit_partial"
   ],
   "note": "Proved for up to two reference products; refuted for every odd number from three on."
  },
  {
   "property": "C90",
   "status": "partial",
   "theorems": [
    "C90_energy_basis_refuted",
    "C90_energy_basis_partial",
    "C90_table"
   ],
   "note": "Refuted for gross calorific values; proved otherwise."
  },
  {
   "property": "C91",
   "status": "partial",
   "theorems": [
    "C91_addresses_refuted",
    "C91_addresses_partial",
    "C91_output_complete_partial",
    "C91_output_complete_refuted"
   ],
   "note": "Proved for sessions without failed runs; refuted after a failed run. The addresses lack the suffix '.xml' (refuted as they stand)."
  },
  {
   "property": "C92",
   "status": "partial",
   "theorems": [
    "C92_unit_conversions_partial",
    "C92_references_partial",
    "C92_plain_unchanged",
    "C92_characters_partial",
    "C92_separators_refuted",
    "C92_percent_refuted",
    "C92_unknown_reference_refuted",
    "C92_nested_refuted"
   ],
   "note": "Proved for formulas with any number of conversion calls or references whose arguments have no brackets, quotes or separators; plain formulas are unchanged; characters described exactly. Refuted for nested conversions, unknown references (abort), percent signs after a divisor and commas between function arguments."
  },
  {
   "property": "C93",
   "status": "proved",
   "theorems": [
    "C93_kind_of_flow",
    "C93_every_exchange_has_a_kind"
   ],
   "note": "Proved."
  },
  {
   "property": "C94",
   "status": "partial",
   "theorems": [
    "C94_stale_bounds_refuted",
    "C94_outside_refuted",
    "C94_lognormal_partial",
    "C94_normal_factor_refuted"
   ],
   "note": "Proved for lognormal and normal pairs as far as it holds; false in general: stale bounds, amount outside them, normal times factor (refuted theorems)."
  },
  {
   "property": "C95",
   "status": "partial",
   "theorems": [
    "C95_unknown_dropped",
    "C95_no_dry_mass_refuted",
    "C95_dimension_refuted",
    "C95_no_double_water"
   ],
   "note": "Proved: unknown properties are left out, no double water entry. False: contents without a dry mass are lost, the named contents get a wrong dimension when given in kg (refuted theorems)."
  },
  {
   "property": "C96",
   "status": "partial",
   "theorems": [
    "C96_variable_has_amount_partial",
    "C96_same_name_refuted",
    "C96_own_pattern_refuted"
   ],
   "note": "Proved for names that are given once and do not follow the converter's patterns; refuted for a name used twice and for names like Eq_ab_1."
  },
  {
   "property": "C97",
   "status": "partial",
   "theorems": [
    "C97_written_variables_stay",
    "C97_converted_formula_partial",
    "C97_mapped_flow_refuted",
    "C97_unnamed_flow_partial"
   ],
   "note": "Proved at the step that writes the variable of a flow with another unit, for every reading of formulas closed under products; refuted for mapped elementary flows with a factor."
  },
  {
   "property": "C98",
   "status": "partial",
   "theorems": [
    "C98_sources_read_back_partial",
    "C98_published_page_refuted"
   ],
   "note": "Author and year (and page, where written) read back when the author has no separator text; refuted: the page of a published source is never written."
  },
  {
   "property": "C99",
   "status": "partial",
   "theorems": [
    "C99_citation_partial",
    "C99_author_cut_refuted"
   ],
   "note": "Proved for authors followed by the two characters the reader cuts; refuted: with 'Author (year)' the last letter of the author is lost."
  },
  {
   "property": "C100",
   "status": "partial",
   "theorems": [
    "C100_master_once",
    "C100_person_missing_refuted",
    "C100_flow_twice_refuted"
   ],
   "note": "Sources and companies are listed once; refuted: a person whose id equals a company's is missing, and flows are listed once per use."
  },
  {
   "property": "C101",
   "status": "partial",
   "theorems": [
    "C101_one_source_partial",
    "C101_mixed_refuted",
    "C101_two_pages_refuted"
   ],
   "note": "Holds for an exchange with one source; refuted in general form for two sources (attributes of both mixed, or ValueError when both have pages)."
  },
  {
   "property": "C102",
   "status": "partial",
   "theorems": [
    "C102_direction_kept_partial",
    "C102_reference_input_refuted"
   ],
   "note": "Holds except for reference flows, which always become outputs (refuted for reference inputs)."
  },
  {
   "property": "C103",
   "status": "proved",
   "theorems": [
    "C103_letter_first",
    "C103_names_kept"
   ],
   "note": "For every successful conversion; the exact names for factor 1.0 and variables referred to at most once."
  },
  {
   "property": "C104",
   "status": "partial",
   "theorems": [
    "C104_variables_kept_partial",
    "C104_file_missing_refuted",
    "C104_original_refuted"
   ],
   "note": "Proved when names differ also from name_original and no exchange of a variable lacks its flow data set; both exclusions are refuted."
  },
  {
   "property": "C105",
   "status": "partial",
   "theorems": [
    "C105_once_partial",
    "C105_two_uses_refuted",
    "C105_collision_refuted"
   ],
   "note": "Proved for factor 1.0, variables used at most once and names that stay different; refuted for two uses and colliding names (with a factor: C106_factor_refuted shows the same name twice)."
  },
  {
   "property": "C106",
   "status": "partial",
   "theorems": [
    "C106_formulas_partial",
    "C106_unchanged",
    "C106_factor_refuted",
    "C106_substring_refuted",
    "C106_repeated_refuted"
   ],
   "note": "Factor 1.0, each variable used at most once by a converted exchange: formulas verbatim (all names legal) or with every illegal name replaced once. Refuted: any other factor gives a self-referring formula; names inside longer names; repeated replacement."
  },
  {
   "property": "C107",
   "status": "partial",
   "theorems": [
    "C107_reference_unit_partial",
    "C107_secondary_refuted",
    "C107_label_refuted",
    "C107_unit_id_refuted"
   ],
   "note": "For amounts entered in the reference unit. Refuted: an amount in a unit of another property is not divided by the content, an amount in another unit keeps the label of that unit so mapping rows do not fit, and the unit id written is that of a unit group."
  },
  {
   "property": "C108",
   "status": "partial",
   "theorems": [
    "C108_references_partial",
    "C108_converted_variable",
    "C108_second_use_refuted",
    "C108_factor_conflict_refuted",
    "C108_value_refuted"
   ],
   "note": "When every variable is used by one exchange at most and no name becomes another one in use. Refuted: a second use aborts, two factors between the same units define one variable twice, the value of the variable is the amount before conversion."
  },
  {
   "property": "C109",
   "status": "partial",
   "theorems": [
    "C109_flows_saved_partial",
    "C109_properties_saved",
    "C109_folder_refuted"
   ],
   "note": "For addresses of the form ../flows/name that exist, or none. Refuted for flows kept in a sub-folder of flows."
  },
  {
   "property": "C110",
   "status": "partial",
   "theorems": [
    "C110_indexed",
    "C110_lists_refuted",
    "C110_reference_flows_refuted"
   ],
   "note": "For every copy that succeeds; the copy succeeds exactly when no list holds a plain text (refuted for several reference flows)."
  },
  {
   "property": "C111",
   "status": "partial",
   "theorems": [
    "C111_units_read_partial",
    "C111_namespaces_refuted"
   ],
   "note": "For prefixed files with at least two units in each group. Refuted: files with a default namespace, and single units in prefixed files, are not read."
  },
  {
   "property": "C112",
   "status": "partial",
   "theorems": [
    "C112_review_kept_partial",
    "C112_version_exchanged_refuted",
    "C112_no_details_refuted",
    "C112_zero_release_refuted",
    "C112_date_with_zone_refuted",
    "C112_external_refuted",
    "C112_system_reviews",
    "C112_automatic_versions_differ"
   ],
   "note": "For details numbered from 0 on, in English, without the two marks, and a major release other than 0: date, details and the outer two numbers are kept. Refuted: the two middle numbers are exchanged, a review without English details or with major release 0 gets an automatic version, a date with a time zone becomes 1900-01-01, every reviewer is internal."
  },
  {
   "property": "C113",
   "status": "partial",
   "theorems": [
    "C113_year_kept_partial",
    "C113_period_contains_partial",
    "C113_second_conversion",
    "C113_period_kept_refuted",
    "C113_zone_refuted",
    "C113_local_time_refuted",
    "C113_early_year_refuted",
    "C113_not_a_day"
   ],
   "note": "For days of the years 1000 to 9999, alone or with a time ending in Z. Refuted: dates with a zone, times without Z and earlier years abort; the days survive only for whole years."
  },
  {
   "property": "C114",
   "status": "partial",
   "theorems": [
    "C114_filled_partial",
    "C114_order_partial",
    "C114_texts_in_place",
    "C114_language_partial",
    "C114_language_refuted",
    "C114_values_filled_again_refuted"
   ],
   "note": "For names, values and plain text without braces; languages only when variables of one name have one text. Refuted: the first variable is used in every language, and a value containing a name is filled again if its variable comes later."
  },
  {
   "property": "C115",
   "status": "partial",
   "theorems": [
    "C115_different_seeds_partial",
    "C115_always_partial",
    "C115_identifier_taken",
    "C115_same_folder_refuted",
    "C115_collision_refuted",
    "C115_capitals_refuted"
   ],
   "note": "Seeds differ for different texts over characters 20 to 199 without an identifier in them. Refuted: addresses in the same identified folder share an identifier, other alphabets collide, capital letters are kept."
  },
  {
   "property": "C116",
   "status": "proved",
   "theorems": [
    "C116_geography",
    "C116_empty_identifier",
    "C116_table",
    "C116_known_location"
   ],
   "note": "Table without empty identifiers as hypothesis, shown for the table of the package."
  },
  {
   "property": "C117",
   "status": "proved",
   "theorems": [
    "C117_index_entry",
    "C117_converts",
    "C117_refused"
   ],
   "note": "Values of attributes are texts; validators of the values are in Validators*."
  },
  {
   "property": "C118",
   "status": "partial",
   "theorems": [
    "C118_complete_partial",
    "C118_valid_datasets_refuted"
   ],
   "note": "Written exactly when identifier, name, reference year, end year, location, type, copyright, person entering, person generating and a product exchange are present. Refuted: ILCD requires three of them only, each other missing element gives AttributeError."
  },
  {
   "property": "C119",
   "status": "partial",
   "theorems": [
    "C119_handlers_can_run",
    "C119_child_alike",
    "C119_parts_ignored_refuted",
    "C119_other_fields_read_partial"
   ],
   "note": "All handlers can run, child and activity data sets alike. Refuted: two documents that differ only in impact indicators and user master data are read alike; everything else is requested, inside or around something requested."
  },
  {
   "property": "C120",
   "status": "proved",
   "theorems": [
    "C120_whole_data_set_read",
    "C120_parts_disjoint"
   ],
   "note": "Same document shapes as C81."
  },
  {
   "property": "C121",
   "status": "proved",
   "theorems": [
    "C121_file_information_can_be_found"
   ],
   "note": "Same document shapes as C81 and C119."
  },
  {
   "property": "C122",
   "status": "partial",
   "theorems": [
    "C122_plain_texts_partial",
    "C122_plain_text_stops_refuted",
    "C122_texts_with_language",
    "C122_ecs_texts"
   ],
   "note": "ILCD: a text without attributes is accepted exactly outside eight fields; with one of them the conversion of any proper document stops (refuted, for all documents). With a language all ILCD texts are accepted; EcoSpold2 texts are accepted both ways. Handlers that look up parts of their value are described elsewhere."
  },
  {
   "property": "C123",
   "status": "partial",
   "theorems": [
    "C123_empty_accepted_partial",
    "C123_empty_stops_refuted",
    "C123_ecs_empty_stops_refuted",
    "C123_ecs_comments_may_be_empty"
   ],
   "note": "Accepted exactly where the content is not used (may_be_empty) or, in EcoSpold2, in comments with texts and images. Refuted: in every other field an empty element stops any proper document."
  },
  {
   "property": "C124",
   "status": "proved",
   "theorems": [
    "C124_mapped",
    "C124_any_mapping",
    "C124_unmapped"
   ],
   "note": "Classifications without a context (C127), texts within the limit of 500 characters (C01, C08). For mappings like the shipped one; for others as long as a class has at most ten steps."
  },
  {
   "property": "C125",
   "status": "partial",
   "theorems": [
    "C125_identified_partial",
    "C125_steps_distinct_partial",
    "C125_unmapped_refuted",
    "C125_no_identifier_refuted"
   ],
   "note": "Shipped pairs of class and identifier are a table, each pair once; proved for all pairs with an identifier. Refuted: '#N/A' entries share one identifier on all levels, unmapped values share '0'."
  },
  {
   "property": "C126",
   "status": "partial",
   "theorems": [
    "C126_kept_in_order_partial",
    "C126_preferred_first_refuted",
    "C126_one_system_refuted",
    "C126_by_product"
   ],
   "note": "All classifications of the two systems are kept in the order of the data set; by-product class proved. Refuted: preference, since the name compared is always 'ILCD'; several classifications have the same name."
  },
  {
   "property": "C127",
   "status": "partial",
   "theorems": [
    "C127_context_stops_refuted",
    "C127_converted_partial"
   ],
   "note": "Refuted: a context on a classification of an activity stops the conversion. Exchanges, and activities without contexts, are always converted with the shipped mapping."
  },
  {
   "property": "C128",
   "status": "partial",
   "theorems": [
    "C128_tags_partial",
    "C128_one_tag_refuted"
   ],
   "note": "From the XML element to the comment. True exactly if there is not a single tag of several letters."
  },
  {
   "property": "C129",
   "status": "partial",
   "theorems": [
    "C129_contact_taken_over_partial",
    "C129_contact_taken_over_refuted",
    "C129_accepted_exactly"
   ],
   "note": "From the XML document to the fields. Refuted: two languages, or a description without language, stop the conversion of the whole data set. Proved for none or one."
  },
  {
   "property": "C130",
   "status": "partial",
   "theorems": [
    "C130_contact_listed_partial",
    "C130_contact_listed_refuted"
   ],
   "note": "Refuted: a contact data set without a full name, or with a name or short name without language, stops the conversion. Proved otherwise."
  },
  {
   "property": "C131",
   "status": "partial",
   "theorems": [
    "C131_documents_accepted_partial",
    "C131_documents_accepted_refuted"
   ],
   "note": "Exact conditions for the three kinds of references. Refuted: an ordinary document in the external documentation, two languages, or no language stop the conversion."
  },
  {
   "property": "C132",
   "status": "partial",
   "theorems": [
    "C132_source_read_partial",
    "C132_citation_first_partial",
    "C132_source_read_refuted"
   ],
   "note": "The citation is handed to the parser of C98 and C99 if every short name has a language. Refuted: no short name, or one without language."
  },
  {
   "property": "C133",
   "status": "partial",
   "theorems": [
    "C133_exchanges_partial",
    "C133_allocation_context_stops_refuted",
    "C133_parameters",
    "C133_volumes",
    "C133_properties",
    "C133_amounts_set_aside"
   ],
   "note": "Refuted: every data set with an exchange whose allocation property comes from another context stops (line 1069 reads the field instead of setting it). This is the only case: an exchange passes exactly if it has no such attribute. Parameters, properties and volumes proved."
  },
  {
   "property": "C134",
   "status": "partial",
   "theorems": [
    "C134_entry_file_review",
    "C134_generator_partial",
    "C134_company_context_stops_refuted",
    "C134_context_partial",
    "C134_context_stops_refuted"
   ],
   "note": "Refuted: a company given by its context only (KeyError), a required context without file location (text + None) stop every data set that has them. Exact conditions proved; data entry, file attributes and reviews proved."
  },
  {
   "property": "C135",
   "status": "partial",
   "theorems": [
    "C135_attributes_kept",
    "C135_coefficients_kept_partial",
    "C135_single_coefficient_lost_refuted",
    "C135_documents_partial"
   ],
   "note": "Attributes proved for every run. Refuted: of a single transfer coefficient only the names of its attributes are kept (the loop runs over the dict). Several are kept. Whole data sets proved under the conditions of C133 and C134."
  },
  {
   "property": "C136",
   "status": "partial",
   "theorems": [
    "C136_programs_keep_types_partial",
    "C136_built_from_data_partial",
    "C136_other_class_accepted_refuted"
   ],
   "note": "Proved for programs that assign data, or structures of the declared class. Refuted in general: `__new__` returns any structure as it is, so a structure of another class is stored."
  },
  {
   "property": "C137",
   "status": "proved",
   "theorems": [
    "C137_assigned_once",
    "C137_value_kept",
    "C137_first_value_judged_alone"
   ],
   "note": ""
  },
  {
   "property": "C138",
   "status": "partial",
   "theorems": [
    "C138_two_languages_stop_refuted",
    "C138_once_judged_alone_partial"
   ],
   "note": "Refuted: `location` and `LCIMethodPrinciple` are single-valued, their handlers assign them once per report, so a second language is a ValueError and the data set is lost, whatever the rest of the document (the comment in the code says several short names are possible). Proved: assigned once, a value is accepted or refused for itself only."
  },
  {
   "property": "C139",
   "status": "proved",
   "theorems": [
    "C139_two_datasets_never_mixed"
   ],
   "note": ""
  },
  {
   "property": "C140",
   "status": "partial",
   "theorems": [
    "C140_allocations_kept_partial",
    "C140_none_kept",
    "C140_single_refuted",
    "C140_same_name_refuted"
   ],
   "note": "Proved for two or more allocations to products with different names, and for none. Refuted: with a single `allocation` the XML reader gives a dictionary instead of a list, the loop runs over its keys and the conversion stops; of allocations to products with the same name only the last is kept."
  },
  {
   "property": "C141",
   "status": "partial",
   "theorems": [
    "C141_described_otherwise_refuted",
    "C141_described_once_partial"
   ],
   "note": "Refuted: `shortDescription` is read as one text with a language, so a missing, multilingual or plain one of any property but the reference one stops the conversion. Proved: described once with a language, the flow is written."
  },
  {
   "property": "C142",
   "status": "partial",
   "theorems": [
    "C142_properties_kept_partial",
    "C142_same_description_refuted"
   ],
   "note": "Proved for properties with different descriptions (the exact list). Refuted: properties are kept by description, so of two with the same one only the last is written."
  },
  {
   "property": "C143",
   "status": "partial",
   "theorems": [
    "C143_identifiers_refuted",
    "C143_identifiers_partial",
    "C143_master_data_kept_partial",
    "C143_master_unit_refuted"
   ],
   "note": "Refuted: with the default option properties of products are written with the ILCD identifier, never an identifier of EcoSpold2 (the table has it); a property of the master data in a unit missing from the table (`hour`, which the shipped data use) stops the conversion. Proved: without the option identifiers and names are those of the table; elementary flows get the master data entries."
  },
  {
   "property": "C144",
   "status": "partial",
   "theorems": [
    "C144_dry_mass_partial",
    "C144_other_description_refuted",
    "C144_volume"
   ],
   "note": "Proved for a property described exactly as 'water content' (the exact list written). Refuted: with any other description nothing is divided or added."
  },
  {
   "property": "C145",
   "status": "partial",
   "theorems": [
    "C145_product_unit",
    "C145_elementary_unit_row",
    "C145_elementary_unit_partial",
    "C145_elementary_unit_refuted",
    "C145_dimensionless_refuted"
   ],
   "note": "Proved for product flows, and for elementary flows if all units of the dimension are the one of the mapping. Refuted: the identifier is that of the first unit with the same dimension, so a unit that the table does not have gets the identifier of another; 'dimensionless' has two identifiers."
  },
  {
   "property": "C146",
   "status": "partial",
   "theorems": [
    "C146_no_file",
    "C146_product_left_out",
    "C146_elementary_left_out",
    "C146_no_type_refuted",
    "C146_no_name_refuted",
    "C146_elementary_stops_refuted"
   ],
   "note": "The two equivalences are proved. Refuted that incomplete data are harmless: no type, no name or an unknown compartment stops the conversion."
  },
  {
   "property": "C147",
   "status": "partial",
   "theorems": [
    "C147_comments_twice_refuted",
    "C147_amount",
    "C147_formula_refuted",
    "C147_merged_partial"
   ],
   "note": "Refuted: the first exchange is finished twice, so its comments appear twice, and its variable and formula stay though the amount is the sum. Proved without comments and variable."
  },
  {
   "property": "C148",
   "status": "proved",
   "theorems": [
    "C148_product_written",
    "C148_elementary_written"
   ],
   "note": ""
  },
  {
   "property": "C149",
   "status": "partial",
   "theorems": [
    "C149_product_returns_partial",
    "C149_names_refuted",
    "C149_unit_refuted",
    "C149_identifier_returns_partial"
   ],
   "note": "Proved (both converters composed, from the EcoSpold2 element through the written XML to the EcoSpold2 exchange): identifier, first name, unit of the reference property; with AES the identifier returns by C21. Refuted: of several names only the first survives, marked as English whatever its language. The unit is the one of the reference property (EUR2000 and kg*a come back as others, C90); a unit without a property stops the conversion."
  },
  {
   "property": "C150",
   "status": "partial",
   "theorems": [
    "C150_cas_refuted"
   ],
   "note": "Refuted for all products: the code asks for `casNumber` but reads `@casNumber`; as an attribute it is never found, so no CAS number is written or read back."
  },
  {
   "property": "C151",
   "status": "partial",
   "theorems": [
    "C151_synonyms_joined_partial",
    "C151_languages_refuted",
    "C151_empty_refuted"
   ],
   "note": "Proved: all texts, joined with '; ', in one element. Refuted: the element has no language; a synonym without a text among several stops the conversion."
  },
  {
   "property": "C152",
   "status": "partial",
   "theorems": [
    "C152_amounts_partial",
    "C152_identifiers_refuted",
    "C152_converted_partial",
    "C152_returning_partial",
    "C152_mixed_refuted"
   ],
   "note": "Proved: amounts and comments return (names different); price and heating values return as themselves without the master data option. Refuted: with the default option the identifier is never one of EcoSpold2; true value relation comes back as price, energy content as gross heating value."
  },
  {
   "property": "C153",
   "status": "partial",
   "theorems": [
    "C153_comments",
    "C153_link_refuted"
   ],
   "note": "Proved: exactly the comments and, if a volume is given, its comments. Refuted: `activityLinkId` is an attribute but is asked for without '@', so the linked activity is never written."
  },
  {
   "property": "C154",
   "status": "partial",
   "theorems": [
    "C154_version_kept_partial",
    "C154_short_version_refuted",
    "C154_product_version"
   ],
   "note": "Proved for versions of three parts (reference equals file) and for product versions, legal exactly up to 999. Refuted: a version of two parts, which the format allows, stops the conversion with an IndexError."
  },
  {
   "property": "C155",
   "status": "proved",
   "theorems": [
    "C155_identified",
    "C155_file_name",
    "C155_order"
   ],
   "note": ""
  },
  {
   "property": "C156",
   "status": "proved",
   "theorems": [
    "C156_numbered"
   ],
   "note": ""
  },
  {
   "property": "C157",
   "status": "partial",
   "theorems": [
    "C157_person_returns_partial",
    "C157_identifier_returns_partial",
    "C157_company_returns_partial",
    "C157_company_without_code_refuted"
   ],
   "note": "Proved (both converters composed): identifier, name and email of the first reference to a person; with AES the identifier returns by C21; companies with a code. Refuted: a company without a code comes back with the code Company; for later references see C158."
  },
  {
   "property": "C158",
   "status": "partial",
   "theorems": [
    "C158_written_once",
    "C158_email_refuted"
   ],
   "note": "Proved: one file each, every reference has one, nothing stops. Refuted: the file is that of the first reference, so an email address given later is lost, and the name in the master data is the first one."
  },
  {
   "property": "C159",
   "status": "partial",
   "theorems": [
    "C159_citation_returns_partial",
    "C159_publication_returns_partial",
    "C159_pages_refuted",
    "C159_author_refuted",
    "C159_year_refuted"
   ],
   "note": "Proved for an author and a year (with the conditions of C98) and the first reference to a source. Refuted: other pages of the same source come back as the first pages; no author comes back as the author Source, without year and pages; pages without a year are lost."
  },
  {
   "property": "C160",
   "status": "partial",
   "theorems": [
    "C160_pictures_return_partial",
    "C160_addresses_refuted"
   ],
   "note": "Proved for the first reference with an identifier. Refuted: addresses that contain the same UUID share an identifier, and the second comes back as the first."
  },
  {
   "property": "C161",
   "status": "proved",
   "theorems": [
    "C161_files_found"
   ],
   "note": ""
  },
  {
   "property": "C162",
   "status": "partial",
   "theorems": [
    "C162_active_written_partial",
    "C162_active_refuted"
   ],
   "note": "Proved: written as a remark (`Active author?: None` if it is missing). Refuted: the remark is not read, persons who differ in it come back the same."
  },
  {
   "property": "C163",
   "status": "partial",
   "theorems": [
    "C163_identified_partial"
   ],
   "note": "Proved for email addresses that are texts (attributes always are, C25)."
  },
  {
   "property": "C164",
   "status": "partial",
   "theorems": [
    "C164_groups",
    "C164_kept_partial",
    "C164_inputs_refuted",
    "C164_stock_refuted",
    "C164_class_refuted",
    "C164_shared_refuted"
   ],
   "note": "Proved: exactly which group comes back for each group and by-product class (C164_groups), and that reference products, inputs from technosphere, by-products, wastes and elementary exchanges keep theirs. Refuted: inputs of materials, fuels and services come back as inputs from technosphere; stock additions as by-products or wastes; a by-product class overrides the group; outputs that share a flow data set get the same group."
  },
  {
   "property": "C165",
   "status": "partial",
   "theorems": [
    "C165_elementary_returns_partial",
    "C165_identifier_partial",
    "C165_two_flows_refuted",
    "C165_amount_partial",
    "C165_scale_refuted"
   ],
   "note": "Proved: identifier, name, unit and amount in terms of the two rows; the identifier is the same exactly if the row for the way back names it; the amount if the factors are inverse and the unit is not scaled. Refuted: two flows with one counterpart are one flow afterwards; with inverse factors the amount changes if the unit of the row is not the one that ILCD has for its dimension (scaled on the way there only)."
  },
  {
   "property": "C166",
   "status": "partial",
   "theorems": [
    "C166_left_out",
    "C166_no_target_refuted"
   ],
   "note": "Proved: exactly which exchanges are left out. Refuted: rows of type NO_FLOW_MATCH_MANUAL or NO_MAPPING, or with blanks around the type, are used on the way to ILCD although the way back takes them for rows without a counterpart."
  },
  {
   "property": "C167",
   "status": "proved",
   "theorems": [
    "C167_found"
   ],
   "note": "Proved for identifiers that are UUIDs, versions that end in a digit, and folders that hold the files of the written exchanges."
  },
  {
   "property": "C168",
   "status": "partial",
   "theorems": [
    "C168_order",
    "C168_product_returns_partial"
   ],
   "note": "Proved: order and number of all exchanges; identifier of the product, its first name (as English), comments, and the amount as it is read again, times one. Names in other languages: see C149."
  },
  {
   "property": "C169",
   "status": "partial",
   "theorems": [
    "C169_general_comment_partial",
    "C169_scenario_refuted"
   ],
   "note": "Proved for activities without tags and scenario, comments with an English text that do not contain the headings themselves, and texts within the limit. Refuted: with a scenario, its line is put before the English text and stays there; the scenario that comes back is always Business-as-Usual."
  },
  {
   "property": "C170",
   "status": "partial",
   "theorems": [
    "C170_name_partial",
    "C170_names_refuted"
   ],
   "note": "Proved for one name. Refuted for any two or more: only that of the smallest language code comes back."
  },
  {
   "property": "C171",
   "status": "partial",
   "theorems": [
    "C171_synonyms_partial",
    "C171_language_refuted"
   ],
   "note": "Proved for English synonyms that are not too long and have no semicolon and blank inside. Refuted for all other languages: the texts come back as English ones."
  },
  {
   "property": "C172",
   "status": "partial",
   "theorems": [
    "C172_technology_partial",
    "C172_included_first_partial",
    "C172_included_last_refuted"
   ],
   "note": "Proved without included activities, and with them if the texts of the comment are numbered above the running number. Refuted: texts numbered below it come back with an extra newline at the end of the English text."
  },
  {
   "property": "C173",
   "status": "partial",
   "theorems": [
    "C173_geography",
    "C173_allocation_partial",
    "C173_allocation_none_refuted",
    "C173_time_partial"
   ],
   "note": "Proved for geography without exception, for time if the validity mark does not occur in the comment, and for allocation unless the comment of a language is the word none, which is dropped (refuted)."
  },
  {
   "property": "C174",
   "status": "partial",
   "theorems": [
    "C174_treatment_refuted",
    "C174_sampling_refuted",
    "C174_empty_refuted"
   ],
   "note": "Refuted: each trip puts two headings before the extrapolations and one behind the sampling procedure; a data set without them comes back with headings only."
  },
  {
   "property": "C175",
   "status": "partial",
   "theorems": [
    "C175_volumes_partial",
    "C175_volumes_refuted"
   ],
   "note": "Proved: written as one text, one line per volume. Refuted: never read again."
  },
  {
   "property": "C176",
   "status": "partial",
   "theorems": [
    "C176_comment_grows_refuted"
   ],
   "note": "Refuted: the first trip keeps the comment of an activity without a scenario (C169), and each further trip puts the line on the Business-as-Usual scenario before the English text, because that is the default on the way back."
  },
  {
   "property": "C177",
   "status": "partial",
   "theorems": [
    "C177_place_partial",
    "C177_place_language_refuted"
   ],
   "note": "Proved for English. Refuted for all other languages: the name comes back as English."
  },
  {
   "property": "C178",
   "status": "proved",
   "theorems": [
    "C178_options_in_force"
   ],
   "note": "Proved for all programs."
  },
  {
   "property": "C179",
   "status": "partial",
   "theorems": [
    "C179_first_partial",
    "C179_alone_partial",
    "C179_late_refuted",
    "C179_other_refuted"
   ],
   "note": "Proved for the first file of a converter, and for a converter that is the only one of its direction and whose mapping is chosen before its first run, if the files of the mappings can be read. Refuted: a mapping assigned later is ignored for files of the same format version, and a converter goes on with the mapping that another one of its direction has used."
  },
  {
   "property": "C180",
   "status": "partial",
   "theorems": [
    "C180_folder_partial",
    "C180_folder_refuted"
   ],
   "note": "Proved if save_path is assigned before the first run only. Refuted: all files of a converter go to one folder."
  },
  {
   "property": "C181",
   "status": "partial",
   "theorems": [
    "C181_input_partial",
    "C181_path_refuted"
   ],
   "note": "Proved for the path of the request. Refuted: assignments to path change nothing, and neither do those to convert_additional_fields, which no code reads."
  },
  {
   "property": "C182",
   "status": "partial",
   "theorems": [
    "C182_failed_partial",
    "C182_references_partial",
    "C182_alone_refuted",
    "C182_after_refuted"
   ],
   "note": "Proved for files with exchanges; after a failure of the converter only those are converted. Refuted: the first file of a program fails if it has none; after another file it is converted with the exchanges of that file."
  },
  {
   "property": "C183",
   "status": "partial",
   "theorems": [
    "C183_variables_partial",
    "C183_variables_refuted"
   ],
   "note": "Proved for programs without a file that fails after its variables were read. Refuted: such a file leaves its variables to the next one without any, even in another converter."
  },
  {
   "property": "C184",
   "status": "partial",
   "theorems": [
    "C184_input_manager_partial",
    "C184_class_refuted",
    "C184_object_refuted",
    "C184_mapping_refuted"
   ],
   "note": "Proved for input managers. Refuted: classes are refused, among them those that a new converter has; objects are accepted and fail when called; every non-empty dictionary of arguments for the mapping is refused."
  },
  {
   "property": "C185",
   "status": "proved",
   "theorems": [
    "C185_restrictions"
   ],
   "note": "Proved for one text per language, each within the length limit."
  },
  {
   "property": "C186",
   "status": "partial",
   "theorems": [
    "C186_approaches_partial",
    "C186_none_refuted"
   ],
   "note": "Proved if there is a text and none says none. Refuted: a field without texts comes back with the text none, and a text none in another language is lost."
  },
  {
   "property": "C187",
   "status": "proved",
   "theorems": [
    "C187_time",
    "C187_technology"
   ],
   "note": "Proved for texts that do not contain the marks of the converter."
  },
  {
   "property": "C188",
   "status": "partial",
   "theorems": [
    "C188_other_languages_partial",
    "C188_comment_grows_refuted"
   ],
   "note": "Proved for the languages other than English. Refuted: the English text gets three lines in front, and one more with every trip."
  },
  {
   "property": "C189",
   "status": "partial",
   "theorems": [
    "C189_name_partial",
    "C189_names_refuted"
   ],
   "note": "Proved for one name. Refuted: all names but the first are dropped."
  },
  {
   "property": "C190",
   "status": "proved",
   "theorems": [
    "C190_location"
   ],
   "note": "Proved for codes of at most 40 characters."
  },
  {
   "property": "C191",
   "status": "partial",
   "theorems": [
    "C191_mix_refuted",
    "C191_mix_partial"
   ],
   "note": "Proved if they are the location code. Refuted: whatever they say is replaced by the location code."
  },
  {
   "property": "C192",
   "status": "partial",
   "theorems": [
    "C192_synonyms_partial",
    "C192_language_refuted"
   ],
   "note": "Proved for one English text with names of at most 80 characters separated by '; '. Refuted: other languages become English."
  },
  {
   "property": "C193",
   "status": "partial",
   "theorems": [
    "C193_deviations_refuted",
    "C193_none_partial"
   ],
   "note": "Proved for fields that say none. Refuted: every other text is taken out of its field, and the first field names a system model."
  },
  {
   "property": "C194",
   "status": "partial",
   "theorems": [
    "C194_treatment_refuted",
    "C194_texts_kept_partial"
   ],
   "note": "Proved: every text of the five fields is somewhere in the text that comes back. Refuted: the text itself never comes back as it was; it gets headings, and two more with every later trip."
  },
  {
   "property": "C195",
   "status": "partial",
   "theorems": [
    "C195_constants_refuted",
    "C195_sampling_partial"
   ],
   "note": "Proved for one trip of a sampling procedure without constants. Refuted: constants are moved to the sampling procedure, and the field gets the energy value of the settings."
  },
  {
   "property": "C196",
   "status": "partial",
   "theorems": [
    "C196_volumes_refuted",
    "C196_none_partial"
   ],
   "note": "Proved for processes without such a text. Refuted: the text is dropped."
  },
  {
   "property": "C197",
   "status": "proved",
   "theorems": [
    "C197_sampling"
   ],
   "note": "Proved for visible texts without the marks of the converter, with at most one sampling procedure per language, within the length limit."
  },
  {
   "property": "C198",
   "status": "proved",
   "theorems": [
    "C198_extrapolations"
   ],
   "note": "Proved for visible texts without the marks of the converter, within the length limit."
  },
  {
   "property": "C199",
   "status": "proved",
   "theorems": [
    "C199_general"
   ],
   "note": "Proved for visible texts without the marks of the converter, within the length limit."
  },
  {
   "property": "C200",
   "status": "proved",
   "theorems": [
    "C200_geography"
   ],
   "note": "Proved for visible texts within the length limit."
  },
  {
   "property": "C201",
   "status": "partial",
   "theorems": [
    "C201_name_parts_refuted",
    "C201_first_name_partial"
   ],
   "note": "Proved: the first name of the file is kept. Refuted: any other part or language is dropped."
  },
  {
   "property": "C202",
   "status": "partial",
   "theorems": [
    "C202_texts_lost_refuted",
    "C202_texts_kept_partial",
    "C202_no_language_refuted"
   ],
   "note": "Proved for all fields with a place in EcoSpold2 except names, and texts other than none. Refuted: functional unit and production volume leave no trace. Refuted too: a base name or a deviation without language makes the conversion fail."
  },
  {
   "property": "C203",
   "status": "partial",
   "theorems": [
    "C203_substitution_refuted",
    "C203_kind_partial"
   ],
   "note": "Proved for all models but two. Refuted: allocation at the point of substitution and the ecoinvent default are written as substitution."
  },
  {
   "property": "C204",
   "status": "proved",
   "theorems": [
    "C204_new_converter"
   ],
   "note": "Proved for all earlier operations, failed runs included. That the failed converter itself is of no more use is C30."
  },
  {
   "property": "C205",
   "status": "partial",
   "theorems": [
    "C205_parameters_partial",
    "C205_identity_refuted",
    "C205_new_identifier",
    "C205_lost_refuted",
    "C205_renamed_refuted",
    "C205_taken_refuted",
    "C205_same_name_refuted",
    "C205_equation_refuted"
   ],
   "note": "Proved for parameters with variable names of their own that begin with a Latin letter: variable name, value, corrected formula and order are kept. Refuted: identifier and names never come back (the identifier is made of the variable name); parameters without variable name and formula are lost, and so are those whose variable name another variable or parameter has; a name that does not begin with a Latin letter gets a prefix, and a parameter with a formula and without name gets one."
  },
  {
   "property": "C206",
   "status": "partial",
   "theorems": [
    "C206_comments_partial",
    "C206_bracket_refuted"
   ],
   "note": "Proved for comments without opening brackets, one per language, that fit in 500 characters together with the unit. Refuted: what is between brackets in a comment does not come back."
  },
  {
   "property": "C207",
   "status": "partial",
   "theorems": [
    "C207_units_partial",
    "C207_bracket_refuted",
    "C207_spelling_refuted"
   ],
   "note": "Proved: the unit comes back as the unit library spells it, with underscores; a dimensionless one is left out. Refuted: bracketed text in a comment of a language after English becomes the unit; units with slash, star, point or blank are respelled."
  },
  {
   "property": "C208",
   "status": "partial",
   "theorems": [
    "C208_exchanges_partial",
    "C208_parameters_refuted"
   ],
   "note": "Proved for exchanges and production volumes. Refuted: parameters without name and formula count as converted, and the ILCD file has nothing of them."
  },
  {
   "property": "C209",
   "status": "partial",
   "theorems": [
    "C209_variables_partial",
    "C209_shared_refuted"
   ],
   "note": "Proved: all amounts with a name or a formula are counted, those converted are all of them with the option and none without it, and the file has no more variables than that; as many if every amount has a name of its own. Refuted: amounts that share a name are all counted as converted, with one variable in the file."
  },
  {
   "property": "C210",
   "status": "partial",
   "theorems": [
    "C210_uncertainty_partial",
    "C210_negative_refuted",
    "C210_parameters_refuted"
   ],
   "note": "Proved: all distributions are counted; those converted are the exchanges with a distribution of ILCD, if no variable has another distribution, or without the option for variables. Refuted: with variables of beta, gamma, binomial or undefined distribution the number converted is negative; distributions of parameters are written with their variables and not counted."
  },
  {
   "property": "C211",
   "status": "proved",
   "theorems": [
    "C211_statistics_of_run"
   ],
   "note": "A file that fails is left out (C30); its counts are set to zero with the rest of the state."
  },
  {
   "property": "C212",
   "status": "partial",
   "theorems": [
    "C212_files_partial",
    "C212_own_partial",
    "C212_left_over_refuted"
   ],
   "note": "Proved: all data sets pass, and an attribute that the last one has is kept with its value. Refuted: an attribute that it does not have is there with the value of the last file before it that has it, since the record is made once for all files."
  },
  {
   "property": "C213",
   "status": "partial",
   "theorems": [
    "C213_equal_partial",
    "C213_mean_refuted"
   ],
   "note": "Proved for flows that are not moved, or moved with the unit unchanged, factor 1 or no unit that fits. Refuted: with a factor only resultingAmount is multiplied, meanAmount stays."
  },
  {
   "property": "C214",
   "status": "partial",
   "theorems": [
    "C214_mean_only_refuted",
    "C214_resulting_partial"
   ],
   "note": "Proved with resultingAmount for flows outside the mapping. Refuted: one exchange without it makes the conversion of the whole process fail."
  },
  {
   "property": "C215",
   "status": "partial",
   "theorems": [
    "C215_again_partial",
    "C215_chain_refuted"
   ],
   "note": "Proved for whole processes if no flow to which the mapping leads is moved by it. Refuted: in a chain the second conversion moves the flow on."
  },
  {
   "property": "C216",
   "status": "partial",
   "theorems": [
    "C216_back_partial",
    "C216_units_refuted"
   ],
   "note": "Proved if the flows are measured in the units of the rows. Refuted: a flow measured in neither unit keeps its amount on the way there and is divided by the factor on the way back."
  },
  {
   "property": "C217",
   "status": "partial",
   "theorems": [
    "C217_steady_partial",
    "C217_file_partial",
    "C217_same_flow_refuted",
    "C217_next_flow_refuted"
   ],
   "note": "Proved if the first property of each flow outside the mapping is the one of its unit: the folder stays as it is. Refuted: otherwise the default property and unit group are copied into the archive; the default unit groups have several units and a namespace without prefix, which get_unit cannot read, so a second exchange of the flow, or the next flow with this unit group, stops the conversion."
  },
  {
   "property": "C218",
   "status": "partial",
   "theorems": [
    "C218_reference_partial",
    "C218_first_refuted"
   ],
   "note": "Proved if the reference property comes first. Refuted: otherwise another property is overwritten and its number and value stay."
  },
  {
   "property": "C219",
   "status": "proved",
   "theorems": [
    "C219_one_place",
    "C219_again"
   ],
   "note": ""
  },
  {
   "property": "C220",
   "status": "partial",
   "theorems": [
    "C220_four_sections_partial",
    "C220_section_refuted",
    "C220_other_section_refuted"
   ],
   "note": "Proved with an element with identifier at the place root[3][0][0]. Refuted: with fewer than four sections (no modellingAndValidation), or another fourth section."
  },
  {
   "property": "C221",
   "status": "partial",
   "theorems": [
    "C221_copied_partial",
    "C221_missing_refuted"
   ],
   "note": "Proved with both folders there and plain files in them. Refuted: without one of the folders, or with a folder in it, the conversion stops."
  },
  {
   "property": "C222",
   "status": "partial",
   "theorems": [
    "C222_default_partial",
    "C222_documents_refuted"
   ],
   "note": "Refuted for every archive: external_docs is never copied; only the documents of the default sources are there."
  },
  {
   "property": "C223",
   "status": "partial",
   "theorems": [
    "C223_last_partial",
    "C223_same_name_refuted",
    "C223_again"
   ],
   "note": "Proved for names that later archives do not have, and for the same archive any number of times. Refuted: of two files of one name the earlier is lost."
  },
  {
   "property": "C224",
   "status": "partial",
   "theorems": [
    "C224_single_partial",
    "C224_secondary_refuted",
    "C224_unmatched_refuted"
   ],
   "note": "Proved for flows outside the mapping with one property. Refuted: further properties are not saved, and for flows that the mapping names without counterpart none is."
  },
  {
   "property": "C225",
   "status": "partial",
   "theorems": [
    "C225_archive_partial",
    "C225_process_refuted",
    "C225_unpacked_refuted"
   ],
   "note": "Proved for one archive with its processes in one folder. Refuted: a process file (.xml) is accepted and then opened as an archive, which fails; a folder without archives is accepted and nothing is converted, without an error."
  },
  {
   "property": "C226",
   "status": "partial",
   "theorems": [
    "C226_one_partial",
    "C226_each_refuted"
   ],
   "note": "Proved for one archive. Refuted: with several, one file is marked last for each archive, so there are as many outputs as archives."
  },
  {
   "property": "C227",
   "status": "partial",
   "theorems": [
    "C227_before_partial",
    "C227_after_refuted"
   ],
   "note": "Proved for the archives before it. Refuted for those after it."
  },
  {
   "property": "C228",
   "status": "partial",
   "theorems": [
    "C228_archives_partial",
    "C228_mixed_refuted",
    "C228_processes_refuted"
   ],
   "note": "Proved for archives (.zip and .ZIP). Refuted: files with mixed letters in the ending are refused, and of the processes only names that end with .xml are delivered."
  },
  {
   "property": "C229",
   "status": "partial",
   "theorems": [
    "C229_files_partial",
    "C229_database_refuted"
   ],
   "note": "Proved with one output for each data set. Refuted in database mode: every data set is said to be the first one."
  },
  {
   "property": "C230",
   "status": "partial",
   "theorems": [
    "C230_new_partial",
    "C230_earlier_refuted",
    "C230_shared_refuted"
   ],
   "note": "Proved when there is no log of that name. Refuted: an existing log is continued, and data sets of the same name share one."
  },
  {
   "property": "C231",
   "status": "partial",
   "theorems": [
    "C231_new_partial",
    "C231_earlier_refuted",
    "C231_missing_refuted",
    "C231_replacing_refuted"
   ],
   "note": "Proved for a new log, flows whose record on the failure comes directly after their first one, identifiers in small letters and names on one line. Refuted: flows of earlier conversions are listed again; flows whose normal uncertainty has no basic variance and identifiers with capital letters are left out; ILCD to ILCD never writes a list."
  },
  {
   "property": "C232",
   "status": "partial",
   "theorems": [
    "C232_nothing_partial",
    "C232_taken_refuted"
   ],
   "note": "Proved only when there is nothing to convert. Refuted: the handlers are removed, later records of the application go to the log of the last data set, and logging.handlers is no module any more."
  },
  {
   "property": "C233",
   "status": "proved",
   "theorems": [
    "C233_read_again"
   ],
   "note": "Proved for every output with a process."
  },
  {
   "property": "C234",
   "status": "partial",
   "theorems": [
    "C234_files_partial",
    "C234_empty_refuted",
    "C234_defaults_partial"
   ],
   "note": "Proved for files, and for the folders of sources, contacts and documents, which always hold default files. Refuted: a folder without files (flowproperties, unitgroups) is not in the archive."
  },
  {
   "property": "C235",
   "status": "partial",
   "theorems": [
    "C235_log_partial",
    "C235_output_partial",
    "C235_log_refuted",
    "C235_archive_refuted"
   ],
   "note": "Proved with the exact limit for names in ASCII. Refuted: base names of ILCD may have 500 characters; from 252 on neither the log of a conversion to EcoSpold2 nor the archive of a conversion to ILCD can be opened."
  },
  {
   "property": "C236",
   "status": "partial",
   "theorems": [
    "C236_given_partial",
    "C236_missing_refuted",
    "C236_stopped_refuted"
   ],
   "note": "Proved with place and years given. Refuted: what is missing is written as None for ILCD, and stops the conversion to EcoSpold2."
  },
  {
   "property": "C237",
   "status": "proved",
   "theorems": [
    "C237_screen",
    "C237_independent",
    "C237_session"
   ],
   "note": "Proved, with the name of a file being what follows the last slash of its path."
  },
  {
   "property": "C238",
   "status": "partial",
   "theorems": [
    "C238_messages_partial",
    "C238_silent_refuted",
    "C238_silent_exactly_partial"
   ],
   "note": "Proved for messages. Refuted: the line with the name of the file is printed for every file that is opened, quiet or not, and only then is anything shown."
  },
  {
   "property": "C239",
   "status": "partial",
   "theorems": [
    "C239_reported_partial",
    "C239_order_partial",
    "C239_small_refuted"
   ],
   "note": "Proved: the warning is given exactly when the sum is off by more than 0.0001, whatever the order of the attributes. Refuted: among the three best scores of the geographical correlation a wrong one is never reported."
  },
  {
   "property": "C240",
   "status": "partial",
   "theorems": [
    "C240_exactly_partial",
    "C240_legal_partial",
    "C240_six_refuted",
    "C240_zero_refuted"
   ],
   "note": "Proved with the exact condition under which it ends without error. Refuted: a score above five stops the conversion, one from -4 to 0 is taken for one from 1 to 5."
  }
 ]
}