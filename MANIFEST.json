{
 "claims": [
  {
   "property": "C01",
   "status": "proved",
   "theorems": [
    "C01_read_bytes_at",
    "C01_no_panic",
    "C01_cursor",
    "C01_read_slice_at",
    "C01_data_range"
   ],
   "note": ""
  },
  {
   "property": "C02",
   "status": "proved",
   "theorems": [
    "C02_read_bytes_at_until",
    "C02_string_table_get",
    "C02_no_panic"
   ],
   "note": ""
  },
  {
   "property": "C03",
   "status": "proved",
   "theorems": [
    "C03_partition",
    "C03_failure",
    "C03_no_panic",
    "C03_fails_only_when_short"
   ],
   "note": ""
  },
  {
   "property": "C04",
   "status": "proved",
   "theorems": [
    "C04_read_agrees",
    "C04_entries_stable"
   ],
   "note": ""
  },
  {
   "property": "C05",
   "status": "partial",
   "theorems": [
    "C05_until_agrees_refuted",
    "C05_until_partial",
    "C05_until_agrees_exact"
   ],
   "note": "The full claim is refuted by C05_until_agrees_refuted: the cached string ignores the requested range's end, so after one read_bytes_at_until a later call with a shorter range answers a longer string. C05_until_partial / C05_until_agrees_exact give the exact conditions under which cached and direct reads agree."
  },
  {
   "property": "C06",
   "status": "partial",
   "theorems": [
    "C06_range_read_agrees",
    "C06_range_read_sound",
    "C06_range_until_refuted",
    "C06_range_until_sound_partial",
    "C06_range_until_agrees_partial"
   ],
   "note": "The full claim is refuted by C06_range_until_refuted: a delimiter lying just past the sub-range is visible through a ReadCacheRange. The remaining parts are proved."
  },
  {
   "property": "C07",
   "status": "proved",
   "theorems": [
    "C07_decode_exact",
    "C07_no_panic",
    "C07_roundtrip"
   ],
   "note": ""
  },
  {
   "property": "C08",
   "status": "proved",
   "theorems": [
    "C08_decode_exact",
    "C08_no_panic",
    "C08_roundtrip"
   ],
   "note": ""
  },
  {
   "property": "C09",
   "status": "proved",
   "theorems": [
    "C09_roundtrip",
    "C09_byte_order",
    "C09_reverse"
   ],
   "note": ""
  },
  {
   "property": "C10",
   "status": "proved",
   "theorems": [
    "C10_align"
   ],
   "note": ""
  },
  {
   "property": "C11",
   "status": "proved",
   "theorems": [
    "C11_merging",
    "C11_in_order",
    "C11_write_once",
    "C11_base_zero_panics_refuted",
    "C11_base_not_null_refuted"
   ],
   "note": ""
  },
  {
   "property": "C12",
   "status": "proved",
   "theorems": [
    "C12_minimal_and_size"
   ],
   "note": ""
  },
  {
   "property": "C13",
   "status": "proved",
   "theorems": [
    "C13_ids_stable",
    "C13_same_id_iff_equal"
   ],
   "note": ""
  },
  {
   "property": "C14",
   "status": "proved",
   "theorems": [
    "C14_vec",
    "C14_slice",
    "C14_slice_overflow",
    "C14_slice_reserve",
    "C14_stream",
    "C14_stream_complete",
    "C14_stream_silent_after_error"
   ],
   "note": ""
  },
  {
   "property": "C15",
   "status": "proved",
   "theorems": [
    "C15_symbols_sorted",
    "C15_before",
    "C15_containing"
   ],
   "note": ""
  },
  {
   "property": "C16",
   "status": "proved",
   "theorems": [
    "C16_one_per_address",
    "C16_entries",
    "C16_top_address_exact",
    "C16_top_address_refuted"
   ],
   "note": ""
  },
  {
   "property": "C17",
   "status": "proved",
   "theorems": [
    "C17_table",
    "C17_next_id"
   ],
   "note": ""
  },
  {
   "property": "C18",
   "status": "proved",
   "theorems": [
    "C18_written_found",
    "C18_by_name",
    "C18_parse_no_panic",
    "C18_sound"
   ],
   "note": ""
  },
  {
   "property": "C19",
   "status": "proved",
   "theorems": [
    "C19_written_found",
    "C19_by_name",
    "C19_symbol_table_length",
    "C19_parse_no_panic",
    "C19_sound",
    "C19_length_no_panic",
    "C19_shift_panic_refuted",
    "C19_zero_base_refuted"
   ],
   "note": ""
  },
  {
   "property": "C20",
   "status": "proved",
   "theorems": [
    "C20_relr_decodes",
    "C20_run_unique"
   ],
   "note": ""
  },
  {
   "property": "C21",
   "status": "proved",
   "theorems": [
    "C21_crel_decodes",
    "C21_crel_total"
   ],
   "note": ""
  },
  {
   "property": "C22",
   "status": "proved",
   "theorems": [
    "C22_alignment",
    "C22_notes_decoded",
    "C22_notes_total",
    "C22_name",
    "C22_props_decoded",
    "C22_props_total",
    "C22_gnu_properties"
   ],
   "note": ""
  },
  {
   "property": "C23",
   "status": "proved",
   "theorems": [
    "C23_roundtrip",
    "C23_subsections",
    "C23_subsubsections",
    "C23_indices"
   ],
   "note": ""
  },
  {
   "property": "C24",
   "status": "proved",
   "theorems": [
    "C24_verdef_roundtrip",
    "C24_encoder_roundtrip",
    "C24_writer_last_link_refuted",
    "C24_verneed_roundtrip",
    "C24_verdef_total",
    "C24_verneed_total",
    "C24_verdaux_total",
    "C24_vernaux_total",
    "C24_version_table",
    "C24_matches"
   ],
   "note": ""
  },
  {
   "property": "C25",
   "status": "proved",
   "theorems": [
    "C25_header_roundtrip",
    "C25_header_error",
    "C25_tables_roundtrip",
    "C25_total"
   ],
   "note": ""
  },
  {
   "property": "C26",
   "status": "proved",
   "theorems": [
    "C26_symbol_fields",
    "C26_symbol_xindex",
    "C26_symtab_roundtrip",
    "C26_total"
   ],
   "note": ""
  },
  {
   "property": "C27",
   "status": "proved",
   "theorems": [
    "C27_layout",
    "C27_held",
    "C27_disjoint",
    "C27_reads_back",
    "C27_tables"
   ],
   "note": ""
  },
  {
   "property": "C28",
   "status": "proved",
   "theorems": [
    "C28_append",
    "C28_append_panic",
    "C28_bss",
    "C28_bss_panic",
    "C28_stays",
    "C28_symbol_data",
    "C28_symbol_bss"
   ],
   "note": ""
  },
  {
   "property": "C29",
   "status": "proved",
   "theorems": [
    "C29_coherent",
    "C29_grows",
    "C29_later",
    "C29_add_symbol",
    "C29_add_section_symbol",
    "C29_symbol_id",
    "C29_section_symbol",
    "C29_section_id",
    "C29_relocation",
    "C29_thread_variable"
   ],
   "note": ""
  },
  {
   "property": "C30",
   "status": "proved",
   "theorems": [
    "C30_parse",
    "C30_parse_no_panic",
    "C30_member",
    "C30_member_no_panic",
    "C30_members",
    "C30_members_member",
    "C30_members_count",
    "C30_data",
    "C30_thin",
    "C30_attributes",
    "C30_disjoint",
    "C30_gnu",
    "C30_bsd"
   ],
   "note": ""
  },
  {
   "property": "C31",
   "status": "proved",
   "theorems": [
    "C31_field_round_trip",
    "C31_reader_exact",
    "C31_names",
    "C31_slash_name_refuted"
   ],
   "note": ""
  },
  {
   "property": "C32",
   "status": "proved",
   "theorems": [
    "C32_blocks",
    "C32_entries",
    "C32_round_trip"
   ],
   "note": ""
  },
  {
   "property": "C33",
   "status": "proved",
   "theorems": [
    "C33_file_range",
    "C33_data_at",
    "C33_data_containing",
    "C33_agree",
    "C33_directory",
    "C33_no_panic",
    "C33_section_containing"
   ],
   "note": ""
  },
  {
   "property": "C34",
   "status": "proved",
   "theorems": [
    "C34_exports_exact",
    "C34_exports_terminate",
    "C34_exports_error",
    "C34_trie_unique"
   ],
   "note": ""
  },
  {
   "property": "C35",
   "status": "proved",
   "theorems": [
    "C35_load_commands",
    "C35_load_commands_end",
    "C35_structure"
   ],
   "note": ""
  },
  {
   "property": "C36",
   "status": "proved",
   "theorems": [
    "C36_exact",
    "C36_no_panic",
    "C36_round_trip"
   ],
   "note": ""
  },
  {
   "property": "C37",
   "status": "proved",
   "theorems": [
    "C37_sections_roundtrip",
    "C37_data_exact",
    "C37_segment_range",
    "C37_interpreter"
   ],
   "note": ""
  },
  {
   "property": "C38",
   "status": "proved",
   "theorems": [
    "C38_rel_layout",
    "C38_rel_roundtrip",
    "C38_rel_reencode",
    "C38_dyn_roundtrip",
    "C38_dyn_overflow",
    "C38_dyn_iterate",
    "C38_import_libraries",
    "C38_total"
   ],
   "note": ""
  },
  {
   "property": "C39",
   "status": "proved",
   "theorems": [
    "C39_parse",
    "C39_chain",
    "C39_section_relocations",
    "C39_dynamic_relocations",
    "C39_total"
   ],
   "note": ""
  },
  {
   "property": "C40",
   "status": "partial",
   "theorems": [
    "C40_reloc_header",
    "C40_group_header",
    "C40_dynamic_header",
    "C40_relr_refuted",
    "C40_relr_as_rela_refuted"
   ],
   "note": "Proved for REL, RELA, group and dynamic sections; refuted for RELR by C40_relr_refuted / C40_relr_as_rela_refuted (encoder.rs relative_relocation_section_header sets SHT_RELA)."
  },
  {
   "property": "C41",
   "status": "partial",
   "theorems": [
    "C41_elf",
    "C41_elf_architecture",
    "C41_riscv_refuted",
    "C41_sharc_refuted",
    "C41_coff",
    "C41_xcoff",
    "C41_xcoff_size_refuted",
    "C41_macho",
    "C41_macho_pcrel8_refuted"
   ],
   "note": "Proved for ELF, COFF, XCOFF (sizes 1..64) and Mach-O with the exceptions in the statement; refuted for RISC-V 32-bit relative relocations (C41_riscv_refuted), the SHARC type B encoding (C41_sharc_refuted), XCOFF sizes 0 and over 64 (C41_xcoff_size_refuted) and 8/16/64-bit PC-relative x86-64 Mach-O relocations (C41_macho_pcrel8_refuted)."
  },
  {
   "property": "C42",
   "status": "partial",
   "theorems": [
    "C42_entry",
    "C42_word",
    "C42_scattered",
    "C42_big_refuted",
    "C42_iterator",
    "C42_order"
   ],
   "note": "Proved for little endian and for scattered entries; refuted for big endian by C42_big_refuted (src/macho.rs 3956 shifts r_symbolnum right instead of left)."
  },
  {
   "property": "C43",
   "status": "proved",
   "theorems": [
    "C43_symbols_sound",
    "C43_symbols_complete",
    "C43_symbols_none",
    "C43_symbols_no_panic",
    "C43_gnu_round_trip"
   ],
   "note": ""
  },
  {
   "property": "C44",
   "status": "proved",
   "theorems": [
    "C44_round_trip"
   ],
   "note": ""
  },
  {
   "property": "C45",
   "status": "proved",
   "theorems": [
    "C45_reports"
   ],
   "note": ""
  },
  {
   "property": "C46",
   "status": "proved",
   "theorems": [
    "C46_comdats"
   ],
   "note": ""
  },
  {
   "property": "C47",
   "status": "proved",
   "theorems": [
    "C47_no_panic",
    "C47_iterates"
   ],
   "note": ""
  },
  {
   "property": "C48",
   "status": "proved",
   "theorems": [
    "C48_table",
    "C48_exports",
    "C48_iterator",
    "C48_target",
    "C48_ordinals",
    "C48_no_panic",
    "C48_file"
   ],
   "note": ""
  },
  {
   "property": "C49",
   "status": "proved",
   "theorems": [
    "C49_table",
    "C49_delay_table",
    "C49_imports",
    "C49_libraries",
    "C49_thunk",
    "C49_new",
    "C49_no_panic"
   ],
   "note": ""
  },
  {
   "property": "C50",
   "status": "proved",
   "theorems": [
    "C50_table",
    "C50_entry",
    "C50_name",
    "C50_directory",
    "C50_no_panic"
   ],
   "note": ""
  },
  {
   "property": "C51",
   "status": "proved",
   "theorems": [
    "C51_parse",
    "C51_no_panic",
    "C51_pdb_info",
    "C51_pdb_no_panic"
   ],
   "note": ""
  },
  {
   "property": "C52",
   "status": "proved",
   "theorems": [
    "C52_round_trip",
    "C52_two_phases",
    "C52_section_data",
    "C52_directory"
   ],
   "note": ""
  },
  {
   "property": "C53",
   "status": "proved",
   "theorems": [
    "C53_parse",
    "C53_no_panic",
    "C53_section",
    "C53_section_data",
    "C53_segment_data"
   ],
   "note": ""
  },
  {
   "property": "C54",
   "status": "proved",
   "theorems": [
    "C54_section_offsets",
    "C54_section_offsets_iff"
   ],
   "note": ""
  },
  {
   "property": "C55",
   "status": "proved",
   "theorems": [
    "C55_section_by_name",
    "C55_section_by_name_none"
   ],
   "note": ""
  },
  {
   "property": "C56",
   "status": "proved",
   "theorems": [
    "C56_function_starts",
    "C56_function_starts_end"
   ],
   "note": ""
  },
  {
   "property": "C57",
   "status": "proved",
   "theorems": [
    "C57_object_map",
    "C57_object_map_unique"
   ],
   "note": ""
  },
  {
   "property": "C58",
   "status": "proved",
   "theorems": [
    "C58_symbols",
    "C58_symbol_by_index"
   ],
   "note": ""
  },
  {
   "property": "C59",
   "status": "proved",
   "theorems": [
    "C59_indirect",
    "C59_table"
   ],
   "note": ""
  },
  {
   "property": "C60",
   "status": "proved",
   "theorems": [
    "C60_entry",
    "C60_uuid",
    "C60_uuid_none"
   ],
   "note": ""
  },
  {
   "property": "C61",
   "status": "proved",
   "theorems": [
    "C61_round_trip"
   ],
   "note": ""
  },
  {
   "property": "C62",
   "status": "proved",
   "theorems": [
    "C62_header",
    "C62_parse",
    "C62_sections",
    "C62_by_name",
    "C62_section_kind",
    "C62_permissions",
    "C62_symbols",
    "C62_comdats",
    "C62_relocation_section",
    "C62_total"
   ],
   "note": ""
  },
  {
   "property": "C63",
   "status": "proved",
   "theorems": [
    "C63_build_id",
    "C63_debuglink",
    "C63_debugaltlink",
    "C63_has_debug"
   ],
   "note": ""
  },
  {
   "property": "C64",
   "status": "proved",
   "theorems": [
    "C64_versions",
    "C64_imports",
    "C64_exports"
   ],
   "note": ""
  },
  {
   "property": "C65",
   "status": "proved",
   "theorems": [
    "C65_compressed",
    "C65_data",
    "C65_utf8"
   ],
   "note": ""
  },
  {
   "property": "C66",
   "status": "proved",
   "theorems": [
    "C66_round_trip",
    "C66_architecture"
   ],
   "note": ""
  },
  {
   "property": "C67",
   "status": "proved",
   "theorems": [
    "C67_stream",
    "C67_rebase_operations",
    "C67_bind_operations"
   ],
   "note": ""
  },
  {
   "property": "C68",
   "status": "proved",
   "theorems": [
    "C68_rebases",
    "C68_binds",
    "C68_weak_binds",
    "C68_lazy_binds",
    "C68_unique"
   ],
   "note": ""
  },
  {
   "property": "C69",
   "status": "proved",
   "theorems": [
    "C69_pointer",
    "C69_pointer_no_panic",
    "C69_fixups",
    "C69_total"
   ],
   "note": ""
  },
  {
   "property": "C70",
   "status": "proved",
   "theorems": [
    "C70_header",
    "C70_imports",
    "C70_import_items",
    "C70_imports_total",
    "C70_segments",
    "C70_segment_items"
   ],
   "note": ""
  },
  {
   "property": "C71",
   "status": "proved",
   "theorems": [
    "C71_kind",
    "C71_no_panic",
    "C71_elf",
    "C71_macho",
    "C71_pe",
    "C71_coff",
    "C71_archive",
    "C71_aix_refuted"
   ],
   "note": ""
  },
  {
   "property": "C72",
   "status": "proved",
   "theorems": [
    "C72_fat",
    "C72_no_panic",
    "C72_data",
    "C72_kind"
   ],
   "note": ""
  },
  {
   "property": "C73",
   "status": "proved",
   "theorems": [
    "C73_import",
    "C73_no_panic",
    "C73_kind"
   ],
   "note": ""
  },
  {
   "property": "C74",
   "status": "proved",
   "theorems": [
    "C74_parse",
    "C74_no_panic"
   ],
   "note": ""
  },
  {
   "property": "C75",
   "status": "proved",
   "theorems": [
    "C75_data",
    "C75_relocations",
    "C75_no_panic",
    "C75_lookup"
   ],
   "note": ""
  },
  {
   "property": "C76",
   "status": "proved",
   "theorems": [
    "C76_symbols",
    "C76_reports",
    "C76_plain",
    "C76_no_panic"
   ],
   "note": ""
  },
  {
   "property": "C77",
   "status": "proved",
   "theorems": [
    "C77_round_trip",
    "C77_bss_refuted",
    "C77_local_refuted"
   ],
   "note": ""
  },
  {
   "property": "C78",
   "status": "proved",
   "theorems": [
    "C78_delete_orphans"
   ],
   "note": ""
  },
  {
   "property": "C79",
   "status": "proved",
   "theorems": [
    "C79_unused_versions"
   ],
   "note": ""
  },
  {
   "property": "C80",
   "status": "proved",
   "theorems": [
    "C80_macho_orphans",
    "C80_deleted_section_refuted"
   ],
   "note": ""
  },
  {
   "property": "C81",
   "status": "proved",
   "theorems": [
    "C81_add_load",
    "C81_layout",
    "C81_layout_exists",
    "C81_copy",
    "C81_recalculate",
    "C81_unsorted_refuted",
    "C81_nobits_refuted"
   ],
   "note": ""
  },
  {
   "property": "C82",
   "status": "proved",
   "theorems": [
    "C82_super_blob",
    "C82_blobs",
    "C82_load_command",
    "C82_contents",
    "C82_no_panic"
   ],
   "note": ""
  },
  {
   "property": "C83",
   "status": "proved",
   "theorems": [
    "C83_directory",
    "C83_unique",
    "C83_blob",
    "C83_special_hash",
    "C83_code_hash",
    "C83_ident",
    "C83_team_id",
    "C83_code_limit",
    "C83_no_panic"
   ],
   "note": ""
  },
  {
   "property": "C84",
   "status": "proved",
   "theorems": [
    "C84_parsed",
    "C84_libraries",
    "C84_libraries_no_panic",
    "C84_import_libraries",
    "C84_results_unique"
   ],
   "note": ""
  },
  {
   "property": "C85",
   "status": "proved",
   "theorems": [
    "C85_imports",
    "C85_exports",
    "C85_unnamed_refuted"
   ],
   "note": ""
  },
  {
   "property": "C86",
   "status": "proved",
   "theorems": [
    "C86_imports"
   ],
   "note": ""
  },
  {
   "property": "C87",
   "status": "proved",
   "theorems": [
    "C87_imports",
    "C87_total",
    "C87_pending_refuted"
   ],
   "note": ""
  },
  {
   "property": "C88",
   "status": "proved",
   "theorems": [
    "C88_trie",
    "C88_base",
    "C88_imports",
    "C88_exports"
   ],
   "note": ""
  },
  {
   "property": "C89",
   "status": "proved",
   "theorems": [
    "C89_parse",
    "C89_no_panic",
    "C89_path"
   ],
   "note": ""
  },
  {
   "property": "C90",
   "status": "proved",
   "theorems": [
    "C90_suffixes",
    "C90_total",
    "C90_count",
    "C90_no_panic"
   ],
   "note": ""
  },
  {
   "property": "C91",
   "status": "proved",
   "theorems": [
    "C91_address",
    "C91_byte",
    "C91_image"
   ],
   "note": ""
  },
  {
   "property": "C92",
   "status": "proved",
   "theorems": [
    "C92_slide",
    "C92_relocations",
    "C92_total",
    "C92_no_panic",
    "C92_mask_refuted"
   ],
   "note": ""
  },
  {
   "property": "C93",
   "status": "proved",
   "theorems": [
    "C93_places",
    "C93_page_refuted"
   ],
   "note": ""
  },
  {
   "property": "C94",
   "status": "proved",
   "theorems": [
    "C94_definitions",
    "C94_requirements",
    "C94_deleted_file_refuted"
   ],
   "note": ""
  },
  {
   "property": "C95",
   "status": "proved",
   "theorems": [
    "C95_version_table"
   ],
   "note": ""
  }
 ]
}