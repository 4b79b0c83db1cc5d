{
 "claims": [
  {
   "property": "C01",
   "status": "proved",
   "theorems": [
    "C01_one_matcher",
    "C01_root_class",
    "C01_own_length_only"
   ],
   "note": "Six root matchers against the RISC-V length encoding; selection depends only on the subtree of the opcode's own length class."
  },
  {
   "property": "C02",
   "status": "partial",
   "theorems": [
    "C02_sound_partial",
    "C02_unseparated_refuted"
   ],
   "note": "Proved for every table in which each encoding can be told from those configured before it; refuted for arbitrary accepted tables."
  },
  {
   "property": "C03",
   "status": "proved",
   "theorems": [
    "C03_complete"
   ],
   "note": "Both directions, for every table whose encodings are separated."
  },
  {
   "property": "C04",
   "status": "proved",
   "theorems": [
    "C04_most_specific"
   ],
   "note": "Every well-formed table."
  },
  {
   "property": "C05",
   "status": "partial",
   "theorems": [
    "C05_order_partial",
    "C05_any_order_partial",
    "C05_every_order_refuted"
   ],
   "note": "Every order in which the encodings stay separated (any order if unambiguous); refuted for arbitrary orders."
  },
  {
   "property": "C06",
   "status": "partial",
   "theorems": [
    "C06_own_stencil_partial",
    "C06_tie_refuted",
    "C06_same_refuted"
   ],
   "note": "An instruction is reached by its own stencil unless something more specific matches; equal-specificity conflicts and identical encodings are accepted (refuted)."
  },
  {
   "property": "C07",
   "status": "proved",
   "theorems": [
    "C07_reserved",
    "C07_any_table",
    "C07_only_selected",
    "C07_formats"
   ],
   "note": "Any decoder in terms of the selected slot; well-formed tables in terms of the records."
  },
  {
   "property": "C08",
   "status": "partial",
   "theorems": [
    "C08_plain_decoder_partial",
    "C08_history_partial",
    "C08_args_refuted",
    "C08_wide_refuted"
   ],
   "note": "Proved for every script of calls with opcodes below the cache bound, trace records that agree with the decoder, UIDs not within 100 of 2^32; refuted for constructor arguments and opcodes that differ above bit 31."
  },
  {
   "property": "C09",
   "status": "partial",
   "theorems": [
    "C09_flush_partial",
    "C09_flush_works",
    "C09_flush_refuted"
   ],
   "note": "Proved for covered scripts (as C08) and every table whose encodings can be told apart; refuted: flushCaches asserts on some accepted tables."
  },
  {
   "property": "C10",
   "status": "partial",
   "theorems": [
    "C10_distinct",
    "C10_frame",
    "C10_private_partial",
    "C10_trace_refuted"
   ],
   "note": "Distinctness and framing of objects handed out proved for all scripts; privacy of the cached object for trace-free histories; refuted after makeInstFromTrace."
  },
  {
   "property": "C11",
   "status": "partial",
   "theorems": [
    "C11_info_partial",
    "C11_make_partial",
    "C11_trace_refuted",
    "C11_register_refuted",
    "C11_poison_refuted"
   ],
   "note": "Proved for getInfo when disputed trace records use names that are not instructions, and for makeInst of undisputed opcodes; three refutations."
  },
  {
   "property": "C12",
   "status": "partial",
   "theorems": [
    "C12_by_name_partial",
    "C12_by_uid_partial",
    "C12_unknown",
    "C12_morph_partial",
    "C12_morph_unknown",
    "C12_morph_uid_refuted",
    "C12_names_refuted",
    "C12_uid_refuted"
   ],
   "note": "Proved for names of uncompressed non-overlay instructions, their UIDs and unknown names; refuted for compressed/overlay names, unassigned UIDs and morphInst with a UID."
  },
  {
   "property": "C13",
   "status": "proved",
   "theorems": [
    "C13_unique_in_program",
    "C13_failed_make_refuted",
    "C13_inverse",
    "C13_inverse_back",
    "C13_unique",
    "C13_unique_across_contexts",
    "C13_user_list",
    "C13_user_list_accepted",
    "C13_stable",
    "C13_uniquely",
    "C13_unique_across_contexts_user_refuted",
    "C13_large_uid_refuted"
   ],
   "note": "Library-chosen UIDs, within a context and over whole programs with several contexts, including contexts whose construction throws (M_Left models the counter they leave); user-supplied UIDs can collide across contexts, UIDs near 2^32 are undefined behaviour, and a makeContext that throws changes later numbers (all three refuted)."
  },
  {
   "property": "C14",
   "status": "proved",
   "theorems": [
    "C14_expansion_uid",
    "C14_lookup_refuted"
   ],
   "note": "The refutation is about looking up the UID of the compressed mnemonic when the user supplies one, an observation outside the statement."
  },
  {
   "property": "C15",
   "status": "proved",
   "theorems": [
    "C15_stash_last_store",
    "C15_stash_retained"
   ],
   "note": "For every hash function and size."
  },
  {
   "property": "C16",
   "status": "partial",
   "theorems": [
    "C16_cache_last_store",
    "C16_cache_hit",
    "C16_cache_last_store_refuted"
   ],
   "note": "Proved for opcodes below 1023 * 2^32; refuted beyond."
  },
  {
   "property": "C17",
   "status": "proved",
   "theorems": [
    "C17_array_lookup",
    "C17_array_total",
    "C17_array_wrap_refuted",
    "C17_registry_lookup",
    "C17_registry_duplicate"
   ],
   "note": "Dynamic array and dual-key registry; keys near 2^32 are undefined behaviour (refuted)."
  },
  {
   "property": "C18",
   "status": "proved",
   "theorems": [
    "C18_kept",
    "C18_configures_kept"
   ],
   "note": ""
  },
  {
   "property": "C19",
   "status": "proved",
   "theorems": [
    "C19_overlay"
   ],
   "note": "Every well-formed table (no shared factory below an overlay)."
  },
  {
   "property": "C20",
   "status": "partial",
   "theorems": [
    "C20_decoders_partial",
    "C20_alone_partial",
    "C20_trace_refuted",
    "C20_names"
   ],
   "note": "Programs that make, switch between and use any number of contexts in any order. C20_decoders_partial: whatever happens in other contexts, the calls in a context are answered as by the plain decoder built from its own arguments (covered calls, as in C08; the UID counter value at construction is existential). C20_alone_partial: every kind of call, trace records aside, is answered as if the context were used alone. C20_names: which names exist, which calls are refused. C20_trace_refuted: the UID of a name known only from a trace record depends on the other contexts."
  },
  {
   "property": "C21",
   "status": "partial",
   "theorems": [
    "C21_immediates",
    "C21_offsets_partial",
    "C21_prefetch_offset_never_negative",
    "C21_prefetch_offset_refuted",
    "C21_decoded"
   ],
   "note": "All 32-bit formats: immediate exact. Offsets exact except the prefetch hint, whose offset is refuted (never negative)."
  },
  {
   "property": "C22",
   "status": "proved",
   "theorems": [
    "C22_immediates",
    "C22_offsets",
    "C22_decoded",
    "C22_slli_reports_no_immediate_refuted"
   ],
   "note": "All compressed formats. The refutation is about hasImmediate() of c.slli, an observation outside the statement."
  },
  {
   "property": "C23",
   "status": "proved",
   "theorems": [
    "C23_sign_extend_is_twos_complement",
    "C23_sign_extend_outside_range"
   ],
   "note": ""
  },
  {
   "property": "C24",
   "status": "proved",
   "theorems": [
    "C24_extract_is_slice",
    "C24_put_get",
    "C24_disjoint_fields",
    "C24_depends_only_on_field_bits",
    "C24_shifted_mask",
    "C24_equivalent_iff_same_extraction",
    "C24_concat_extract",
    "C24_named",
    "C24_places",
    "C24_cover"
   ],
   "note": "Fields, concatenated fields, and the fields of all registered forms."
  },
  {
   "property": "C25",
   "status": "partial",
   "theorems": [
    "C25_lists_agree_partial",
    "C25_regular_formats",
    "C25_exceptions_refuted",
    "C25_sdsp_x0_refuted"
   ],
   "note": "67 of 85 formats for every consistent typing; the other 18 under an explicit typing condition, each refuted without it."
  },
  {
   "property": "C26",
   "status": "proved",
   "theorems": [
    "C26_sources_unfixed",
    "C26_dests_unfixed"
   ],
   "note": "Every format by its table of register slots; the pair formats are C37. Excluded corner cases stated in the theorems: mask of the unused base format C2_sp, mask of format U with a fixed destination."
  },
  {
   "property": "C27",
   "status": "proved",
   "theorems": [
    "C27_registers_in_range"
   ],
   "note": "Every format; pair formats with free register fields."
  },
  {
   "property": "C28",
   "status": "partial",
   "theorems": [
    "C28_typed_submask_partial",
    "C28_types_cover_partial",
    "C28_sp_loads_refuted",
    "C28_cjalr_refuted"
   ],
   "note": "Sub-mask: 66 formats for every typing, 19 under a typing condition; two families refuted without it. Cover: under the same conditions as C25."
  },
  {
   "property": "C29",
   "status": "proved",
   "theorems": [
    "C29_jump_classification",
    "C29_others_unclassified",
    "C29_combined"
   ],
   "note": "All six jump formats, every opcode."
  },
  {
   "property": "C30",
   "status": "partial",
   "theorems": [
    "C30_is_inst_type",
    "C30_any_of",
    "C30_all_of",
    "C30_same_as",
    "C30_merge_keeps_both",
    "C30_set_inst_type",
    "C30_record_types",
    "C30_unknown_type_reported",
    "C30_type_names",
    "C30_type_bit",
    "C30_field_names",
    "C30_is_isa",
    "C30_isa_any_of",
    "C30_isa_all_of",
    "C30_isa_same_as_partial",
    "C30_isa_same_as_refuted",
    "C30_typing_consistent",
    "C30_typing_preserved",
    "C30_typing_default",
    "C30_operand_types"
   ],
   "note": "All instruction-type queries; isISASameAs is refuted as an equivalence."
  },
  {
   "property": "C31",
   "status": "proved",
   "theorems": [
    "C31_popcount",
    "C31_mask_to_list"
   ],
   "note": ""
  },
  {
   "property": "C32",
   "status": "partial",
   "theorems": [
    "C32_in_order",
    "C32_immediate",
    "C32_fields_partial",
    "C32_fixed_dest_refuted",
    "C32_dest_type_refuted",
    "C32_typed_refuted"
   ],
   "note": "Order, values, masks, store marks and immediates for every direct extractor class, any history and any name or UID (in_order). Fields and types for ExtractorDirectInfo by mnemonic, with the exact outcome outside the limits; missing: destinations the instruction fixes (refuted: they are used), the type of a second destination (refuted: that of rd is used) and compressed instructions and overlays, which cannot be named. The register masks by type are refuted."
  },
  {
   "property": "C33",
   "status": "proved",
   "theorems": [
    "C33_renamed",
    "C33_outcome",
    "C33_unknown"
   ],
   "note": "Renaming, values, masks and types for every extractor class, any history of pseudo calls, by name or UID (UIDs within 100 of 2^32 aside); exact outcome for operand lists; unknown names."
  },
  {
   "property": "C34",
   "status": "partial",
   "theorems": [
    "C34_attributes",
    "C34_duplicates",
    "C34_override_refuted"
   ],
   "note": "Per attribute: last override, else last file that sets it; duplicates within a file rejected, everything else accepted. Refuted in one respect: an override for a mnemonic that is in no annotation file has no effect."
  },
  {
   "property": "C35",
   "status": "proved",
   "theorems": [
    "C35_special_fields"
   ],
   "note": "Every format, field and opcode, including which exception."
  },
  {
   "property": "C36",
   "status": "partial",
   "theorems": [
    "C36_stores_split",
    "C36_pair_stores_split_partial",
    "C36_sd_pair_refuted",
    "C36_sd_pair_x0_refuted"
   ],
   "note": "All stores except the 32-bit register-pair store, which is refuted."
  },
  {
   "property": "C37",
   "status": "proved",
   "theorems": [
    "C37_fixed_refuted",
    "C37_pairs",
    "C37_odd_illegal"
   ],
   "note": "All six register-pair formats. C37_fixed_refuted concerns records with fixed fields, of which the shipped tables have none for these formats."
  },
  {
   "property": "C38",
   "status": "partial",
   "theorems": [
    "C38_loads",
    "C38_reaches",
    "C38_own_stencil_refuted",
    "C38_well_formed",
    "C38_decodes",
    "C38_total_partial",
    "C38_pair_refuted",
    "C38_both_refuted",
    "C38_order_partial"
   ],
   "note": "All RV64 files; RV32 files with either isa_rv32cf or isa_rv32zclsd. Refuted: both of these together (C38_both), own-stencil decoding of c.jalr, and c.sdsp x0 (0xE002) fails an assertion."
  },
  {
   "property": "C39",
   "status": "partial",
   "theorems": [
    "C39_sources_without_x0_partial",
    "C39_dests_without_x0",
    "C39_x0_kept_refuted",
    "C39_sd_pair_refuted"
   ],
   "note": "Destinations: every format. Sources: all but four formats that keep x0 (refuted) and sd with base x0 (refuted)."
  },
  {
   "property": "C40",
   "status": "proved",
   "theorems": [
    "C40_built_iff_consistent",
    "C40_counts",
    "C40_field_queries",
    "C40_decoded_counts"
   ],
   "note": "Lists in general and those of decoded instructions."
  },
  {
   "property": "C41",
   "status": "partial",
   "theorems": [
    "C41_load_address",
    "C41_vector_load_refuted"
   ],
   "note": "Scalar loads; vector loads report no address registers (refuted)."
  },
  {
   "property": "C42",
   "status": "proved",
   "theorems": [
    "C42_refines",
    "C42_own_meta"
   ],
   "note": "Refinement of the decoder to the flat table of records."
  },
  {
   "property": "C43",
   "status": "proved",
   "theorems": [
    "C43_get_opcode"
   ],
   "note": ""
  },
  {
   "property": "C44",
   "status": "proved",
   "theorems": [
    "C44_total"
   ],
   "note": "Hypothesis \"readable\" is a condition on operand typings, checked for the shipped tables in C38_total_partial."
  },
  {
   "property": "C45",
   "status": "partial",
   "theorems": [
    "C45_annotation",
    "C45_compressed_refuted",
    "C45_factory_refuted"
   ],
   "note": "C45_annotation covers every decoded instruction of a well-formed table. Refuted as users would expect it: the own annotation of a compressed instruction is never used, and the annotation of a factory name beats the own one."
  },
  {
   "property": "C46",
   "status": "proved",
   "theorems": [
    "C46_specials"
   ],
   "note": "For every special field but the end marker of the enumeration, which is undefined behaviour."
  },
  {
   "property": "C47",
   "status": "proved",
   "theorems": [
    "C47_counts",
    "C47_masks",
    "C47_both_sides"
   ],
   "note": "Every extractor class, opcode and typing (pair formats with free registers); counts are of the reported operands."
  },
  {
   "property": "C48",
   "status": "proved",
   "theorems": [
    "C48_accepted",
    "C48_reported",
    "C48_isa",
    "C48_overrides"
   ],
   "note": "The text of the isa clause is given split into width and letter."
  },
  {
   "property": "C49",
   "status": "partial",
   "theorems": [
    "C49_instruction_partial",
    "C49_operands_partial",
    "C49_every_row_refuted",
    "C49_unknown",
    "C49_illegal",
    "C49_reserved_partial",
    "C49_ldsp_x0_refuted",
    "C49_complete_partial",
    "C49_tie",
    "C49_pairs_partial",
    "C49_sd_marks_refuted"
   ],
   "note": "S_Manual was written from knowledge of the manuals; no copy of them was at hand. Missing: the names whose rows are wrong (each shown wrong by C49_every_row_refuted, C49_sd_marks_refuted) and the opcodes of C38_pair_refuted. 'addi rd, x0, 0', which fits li and mv alike, is li (C49_tie). A register file is compared, not the floating-point precision."
  },
  {
   "property": "C50",
   "status": "partial",
   "theorems": [
    "C50_reads",
    "C50_same_text",
    "C50_fixed_csr_refuted",
    "C50_mew_refuted",
    "C50_tidy",
    "C50_comma_refuted",
    "C50_shipped_partial",
    "C50_tidy_shipped",
    "C50_unambiguous_partial",
    "C50_vset_refuted",
    "C50_pair_refuted",
    "C50_direct"
   ],
   "note": "C50_reads covers all extractor classes under the typings of as_reported; C50_shipped_partial and C50_unambiguous_partial the shipped tables; C50_tidy and C50_tidy_shipped the punctuation. Missing: RV32 pairs at x0 (C50_pair_refuted), the immediates of vsetvli and vsetivli (C50_vset_refuted); a stray comma when all shown registers are fixed (C50_comma_refuted). Disassemblers installed by the user and dasmAnnotate are in C59."
  },
  {
   "property": "C51",
   "status": "partial",
   "theorems": [
    "C51_formats",
    "C51_shipped_partial",
    "C51_whole_partial",
    "C51_nop_refuted",
    "C51_ntl_refuted",
    "C51_wide_refuted"
   ],
   "note": "C51_formats covers all extractor classes, C51_shipped_partial and C51_whole_partial the shipped tables. Missing: c.nop and c.ntl.* (C51_nop_refuted, C51_ntl_refuted), and the HINTs of the base ISA (C51_wide_refuted)."
  },
  {
   "property": "C52",
   "status": "partial",
   "theorems": [
    "C52_decoder_first",
    "C52_new_name_partial",
    "C52_known_name_partial",
    "C52_builtin_name_partial",
    "C52_overlay_refuted",
    "C52_repeat_refuted",
    "C52_expansion_refuted"
   ],
   "note": "C52_decoder_first and C52_new_name_partial hold for all states and histories; C52_known_name_partial for the names of all instructions of well-formed tables but nop and cmov, whether or not they share a factory, and C52_builtin_name_partial for nop and cmov when no instruction of the table has that name (getOpcode does not know the names of compressed ones: C52_new_name_partial). Missing: false for repeated records, for names of the same family and for names with an overlay that fits (C52_repeat_refuted, C52_expansion_refuted, C52_overlay_refuted)."
  },
  {
   "property": "C53",
   "status": "partial",
   "theorems": [
    "C53_unique",
    "C53_attributes",
    "C53_accepted",
    "C53_unreadable",
    "C53_malformed",
    "C53_no_file_refuted"
   ],
   "note": "Everything is proved but that an override of another form is reported: without files it is accepted (C53_no_file_refuted), otherwise the process is terminated (C53_malformed)."
  },
  {
   "property": "C54",
   "status": "partial",
   "theorems": [
    "C54_members",
    "C54_merge",
    "C54_match_one",
    "C54_match_two",
    "C54_tags",
    "C54_tags_refuted"
   ],
   "note": "Proved; false for the tags of compressed instructions (C54_tags_refuted)."
  },
  {
   "property": "C55",
   "status": "partial",
   "theorems": [
    "C55_parts",
    "C55_number",
    "C55_any_stencil",
    "C55_stencil",
    "C55_match_hex",
    "C55_match_decimal",
    "C55_isa",
    "C55_isa_bare",
    "C55_isa_malformed",
    "C55_isa_letter",
    "C55_shipped",
    "C55_stencil_garbage_refuted",
    "C55_match_garbage_refuted",
    "C55_same_base_refuted",
    "C55_isa_dropped_refuted"
   ],
   "note": "What is read is determined for every text (C55_number, C55_any_stencil, C55_isa_malformed, C55_isa_letter); texts that are not numerals are not always refused (the _refuted theorems)."
  },
  {
   "property": "C56",
   "status": "partial",
   "theorems": [
    "C56_accepted",
    "C56_refused",
    "C56_exactly",
    "C56_unambiguous",
    "C56_alias_refuted",
    "C56_no_ub",
    "C56_any_order",
    "C56_any_order_refuted"
   ],
   "note": "Exact for tables without alias stencils and for tables whose fixed fields tell all encodings apart (C56_unambiguous); otherwise sufficient with all encodings and necessary with the records' own. Refuted: the order of records does not matter; a clashing alias stencil is always refused (C56_alias_refuted)."
  },
  {
   "property": "C57",
   "status": "partial",
   "theorems": [
    "C57_lists_partial",
    "C57_abort_refuted",
    "C57_extractor_refuted",
    "C57_overlays_refuted"
   ],
   "note": "For tables whose encodings can be told apart. Refuted: printing always works; the extractor named is the one asked for (six exceptions); the text tells what the decoder answers (overlays are missing)."
  },
  {
   "property": "C58",
   "status": "partial",
   "theorems": [
    "C58_reason",
    "C58_abort",
    "C58_thrown_refuted",
    "C58_base_refuted"
   ],
   "note": "C58_reason and C58_abort cover every exception and every failing assertion of construction. Missing, because false: some clashes fail an assertion instead of throwing (C58_thrown_refuted), and a base that exists may be reported as not found (C58_base_refuted). Exception texts are not modelled."
  },
  {
   "property": "C59",
   "status": "partial",
   "theorems": [
    "C59_installed",
    "C59_default",
    "C59_refused",
    "C59_annotation_refuted"
   ],
   "note": "C59_installed, C59_default and C59_refused cover the property but for its last sentence, which is false (C59_annotation_refuted). Disassemblers are functions: one with a state of its own is not modelled."
  },
  {
   "property": "C60",
   "status": "partial",
   "theorems": [
    "C60_first",
    "C60_opcode",
    "C60_meta_refuted",
    "C60_opcode_refuted",
    "C60_overlay_refuted",
    "C60_compressed"
   ],
   "note": "C60_first, C60_compressed and C60_opcode prove the last sentence. The first sentence is false (C60_meta_refuted, C60_opcode_refuted, C60_overlay_refuted); when the records sharing a factory agree it is C42. Missing in C60_compressed: expansions whose name is also the factory of another instruction."
  },
  {
   "property": "C61",
   "status": "partial",
   "theorems": [
    "C61_local_partial",
    "C61_extend_partial",
    "C61_extend_uid_partial",
    "C61_local_anno_partial",
    "C61_extend_anno_partial",
    "C61_ids",
    "C61_every_refuted"
   ],
   "note": "Proved for well-formed tables (C42's condition); with the same annotation list the annotation is the same too (C61_local_anno_partial, C61_extend_anno_partial), with the same UID list and counter the UID (C61_extend_uid_partial); UIDs assigned before stay for every accepted table (C61_ids). Refuted for every accepted table (C61_every_refuted)."
  },
  {
   "property": "C62",
   "status": "partial",
   "theorems": [
    "C62_class",
    "C62_size",
    "C62_whole_partial",
    "C62_whole_size_partial",
    "C62_omitted_refuted",
    "C62_part_refuted"
   ],
   "note": "Proved: flags and sizes are right for every part of the shipped tables (C62_class, C62_size). The converse holds for whole tables but for the opcodes in cl_omitted and prefetch.r, each of which is shown to be wrong (C62_omitted_refuted), and fails for parts (C62_part_refuted)."
  },
  {
   "property": "C63",
   "status": "partial",
   "theorems": [
    "C63_pseudos",
    "C63_accepted",
    "C63_only",
    "C63_refused",
    "C63_annotation_partial",
    "C63_override_refuted",
    "C63_tags_refuted",
    "C63_variants_refuted"
   ],
   "note": "Proved: acceptance (with the proviso of C56 about alias stencils), the reason for every refusal, no undefined behaviour, and the annotations of pseudo-instructions as the files give them. C63_annotation_partial leaves the overrides out because they do not apply (C63_override_refuted); neither do tag filters (C63_tags_refuted, C63_variants_refuted)."
  },
  {
   "property": "C64",
   "status": "partial",
   "theorems": [
    "C64_width",
    "C64_one",
    "C64_typed_partial",
    "C64_untyped_refuted"
   ],
   "note": "Proved: every type that is reported is the one of the opcode map, and at most one kind of each bank is right. C64_typed_partial leaves out three instructions that have a register without a type (C64_untyped_refuted)."
  },
  {
   "property": "C65",
   "status": "partial",
   "theorems": [
    "C65_regular_partial",
    "C65_exact_partial",
    "C65_addiw_refuted",
    "C65_pair_refuted"
   ],
   "note": "C65_regular_partial leaves out the formats that do not look at the type of each register (listed in coarse); C65_exact_partial leaves out addiw, c.addiw and the RV32 pair stores of x0, for which the statement is false (C65_addiw_refuted, C65_pair_refuted)."
  },
  {
   "property": "C66",
   "status": "partial",
   "theorems": [
    "C66_field_partial",
    "C66_extra_refuted"
   ],
   "note": "C66_field_partial decides every special field of every decoded opcode of the shipped tables and their parts; it is called partial because it lets through the opcodes extra_field, for which the code reports a field that the manual does not have (C66_extra_refuted shows that each of them is needed)."
  },
  {
   "property": "C67",
   "status": "partial",
   "theorems": [
    "C67_opcode",
    "C67_unknown",
    "C67_illegal",
    "C67_special",
    "C67_field_partial",
    "C67_rs4_refuted",
    "C67_build_partial",
    "C67_form_refuted",
    "C67_same_text_refuted",
    "C67_catch_refuted"
   ],
   "note": "Proved for refused opcodes, special fields and, except for the instruction's name in three kinds of messages, refused tables and UID lists. Refuted: unknown xform (C67_form_refuted, C67_same_text_refuted), the name of rs4 (C67_rs4_refuted), and catching as std::exception (C67_catch_refuted). Texts about JSON files and pseudo-instructions are not modelled."
  },
  {
   "property": "C68",
   "status": "partial",
   "theorems": [
    "C68_says_partial",
    "C68_compressed_refuted",
    "C68_borrowed_refuted"
   ],
   "note": "C68_says_partial proves all parts for well-formed tables except the types of operands of formats with implicit registers or register pairs (C68_borrowed_refuted) and a compressed record's own clauses (C68_compressed_refuted)."
  },
  {
   "property": "C69",
   "status": "partial",
   "theorems": [
    "C69_expands_partial",
    "C69_listed",
    "C69_unlike_refuted",
    "C69_shift_refuted",
    "C69_raw_refuted",
    "C69_pairs_partial",
    "C69_marks_refuted"
   ],
   "note": "Together, C69_expands_partial and C69_pairs_partial cover every 16-bit instruction of the shipped tables (C69_listed); what is left out is false: C69_unlike_refuted, C69_shift_refuted, C69_marks_refuted."
  },
  {
   "property": "C70",
   "status": "proved",
   "theorems": [
    "C70_shipped",
    "C70_tidy",
    "C70_untidy_refuted"
   ],
   "note": "C70_untidy_refuted shows that the condition on the table is needed."
  },
  {
   "property": "C71",
   "status": "partial",
   "theorems": [
    "C71_alike",
    "C71_shipped",
    "C71_shifts_partial",
    "C71_text_refuted",
    "C71_pairs_refuted",
    "C71_names",
    "C71_renamed",
    "C71_known"
   ],
   "note": "Any two tables: C71_alike. Shipped tables: C71_shipped, C71_names and C71_renamed (exact list of differing names), C71_known, and C71_shifts_partial for the shifts, whose text differs (C71_text_refuted). Loads and stores of register pairs differ between RV32 and RV64 (C71_pairs_refuted)."
  },
  {
   "property": "C72",
   "status": "partial",
   "theorems": [
    "C72_builtin",
    "C72_opcode",
    "C72_own_refuted",
    "C72_compressed_refuted"
   ],
   "note": "Name, UID and annotation are proved (C72_builtin; for tables that share factories, where no instruction called nop or cmov asks for another factory). The own meta-data and opcode are refuted (C72_own_refuted); what holds instead is C72_builtin and C72_opcode. Refuted for compressed instructions of these names (C72_compressed_refuted)."
  },
  {
   "property": "C73",
   "status": "partial",
   "theorems": [
    "C73_kind_partial",
    "C73_has_partial",
    "C73_pairs",
    "C73_every_name_refuted",
    "C73_unsigned"
   ],
   "note": "Refuted for the 26 names of S_ImmKind.odd_kinds (C73_every_name_refuted); proved for all other instructions of the shipped tables and their parts (C73_kind_partial, C73_has_partial, C73_pairs). C73_unsigned holds for every table."
  },
  {
   "property": "C74",
   "status": "proved",
   "theorems": [
    "C74_numbers",
    "C74_records",
    "C74_after_records"
   ],
   "note": "Programs of any calls without trace records in which makeContext fails only for a taken name (C74_numbers), followed by any trace records, up to 2^32 numbers (C74_records), and by another context (C74_after_records); what other failed constructions do to the counter is in C13_failed_make_refuted."
  },
  {
   "property": "C75",
   "status": "partial",
   "theorems": [
    "C75_forgets_partial",
    "C75_records_refuted",
    "C75_factory_name_refuted"
   ],
   "note": "Proved for getInfo and makeInst after any calls whose trace records do not use a name that is only a factory's; false of trace records after the flush (C75_records_refuted) and of factory names (C75_factory_name_refuted)."
  }
 ]
}
