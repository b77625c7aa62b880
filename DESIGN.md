# Formal model of PreCore in Rocq (Coq 8.16.1)

## Method

Every topic has up to four kinds of file under `rocq/theories/`:

* `X_Model.v`  – executable Gallina transcription of the C++ code, every definition citing file and lines in /repo;
* `X_Spec.v`   – (when needed) a small specification independent of the model;
* `X_Proof.v`  – lemmas;
* `X_Props.v`  – the property theorems (`C<nn>_…`) with `Print Assumptions` and non-vacuity `Example`s beside them.

Machine integers are `Z` with explicit wrap-around (`mod 2^n`) wherever the C++ type wraps; bytes are `Z`
in `[0,256)`; buffers and strings are `list Z`.  Undefined behaviour and exceptions are separate outcomes
(`option`/result types), never a default value.  Loops are structural recursion or explicit fuel with an
out-of-fuel outcome excluded by the theorems (or, for recursion over user data, fuel = available call stack,
and the theorem says how much is enough).

Where the shipped code violates the property a user relies on, the property is kept in full in
`properties.jsonl`; the file proves (a) the claim on the exact domain where it holds, and (b) a theorem
(suffix `_refuted`, `_wrong`, `_unsafe` …) exhibiting or characterising the failing inputs, so that the claim's
boundary is itself machine-checked.

## Properties: what is modelled, how it is proved

| id | model | proof |
|----|-------|-------|
| C01-C02 | `Base128_Model`: both Write loops as byte lists, both Read loops over a byte list | induction over 7-bit groups, shifts/lor as arithmetic |
| C03 | `Endian_Model`: shift/mask swaps | bitwise extensionality |
| C04-C05 | `Bitfield_Model`: layouts as lists of widths, masks, Get/Set/SwapBitField | `Z.testbit` extensionality |
| C06 | `Flags_Model`: operation histories | `Z.testbit`, induction over histories |
| C07-C09 | `Supercore_Model`: padding, FourCC, loops | arithmetic, list induction |
| C10-C12 | `FileInfo_Model`: Load/getters/Explode on char lists | list induction |
| C13-C14 | `Ownership_Model`: allocator / deleter transition systems | invariants over all histories |
| C15-C17 | `Xor_Model`, `Blowfish_Model` | induction over blocks, Feistel inverse |
| C18-C19 | `Jenkins_Model` | induction; refutation by characterising the ignored tail |
| C20-C23 | `StringView_Model` | list induction |
| C24 | `ThreadQueue_Model`: labelled transition system, scheduler = arbitrary list of events | invariant + termination measure |
| C25 | `Printer_Model`: lock-based transition system of any number of threads | invariant over schedules |
| C26-C30 | `Stream_Model`: byte stream with position, origin stack, byte order, state bits | list algebra |
| C31-C32 | `DirScan_Model`: file system as a function, scan order; mkdirs over string sets | induction over trees and paths |
| C33 | `Zip_Model`: byte-level parser over the stream model | induction over entries |
| C34-C38 | `Reflector_Model`: number parsing/clamping, enums, member tables over a byte memory | induction, bit lemmas |
| C39 | `BinDump_Model`: binary dump of reflected objects | induction over nested layouts |
| C40 | `Morton_Model` | bit extensionality |
| C41 | `Block_Model` | bit lemmas, finite sweeps lifted with `forallb_forall` |
| C42-C43 | `Dds_Model` | prefix sums; finite case analysis |
| C44 | `HalfFloat_Model` | bit-level model, finite sweep lifted with `forallb_forall` |
| C45 | `Matrix_Model` over an abstract scalar, instantiated with the reals | ring/field |
| C46 | `Vector_Model`, `Simd_Model` | componentwise; rounding lemmas; reals for the exact part |
| C47-C49 | `UniFormat_Model` | bit lemmas, error bounds over binary32 patterns |
| C50 | `UniList_Model` | induction |
| C51 | `Blowfish_Model` (SetKey) with the published pi tables | induction over the schedule |
| C52-C53 | `Block_Model`, `Blue_Model`: colour blocks and blue restoration in binary32 | byte sweeps, exact binary32 evaluation |
| C54 | `Pointer_Model`: slots, thread-local used lists, histories of fixups and clears | invariant over histories |
| C55 | `Wave_Model`: header walk, fmt constructors, the smpl header and its loops as bytes | arithmetic |
| C56 | `Unicode_Model`: codecvt as in libstdc++ 13 | induction over encodings |
| C57-C58 | `UniModel_Model`: vertex unpacking, RTS comparison, default implementations | case analysis; reals for unpacking |
| C59 | `BlockSimd_Model`: shuffles and lane arithmetic | lane/byte lemmas, equality with the scalar decoder |
| C60-C63 | `RefAccess_Model` | table lemmas |
| C64 | `MacroLoop_Model`: macro argument counting and loops | induction / finite |
| C65 | `RefDb_Model`: byte image written by Save, in-place fixups of Load; `RefDbHeld_Model`: Load into an object that holds classes or enumerations, Save into a stream that is not empty | layout lemmas, induction over records and fixups; what converting a record a second time does to its bytes |
| C66 | `Branch_Model` | list lemmas |
| C67-C68 | `XmlRefl_Model`, `XmlRefl2_Model`: XML tree, members of nested objects in one memory | induction over nesting depth; bit-level copy relation |
| C69 | `ZipWrite_Model`: structures as memory with member offsets, the pieces read and written | byte-position tables, list lemmas; composed with C33 |
| C70 | `View_Model`: pointer and size into a memory | induction over histories |
| C71 | `PyUni_Model`: list object with reference count, CPython for statement, enumeration tables | induction over histories of calls and over loops |
| C72 | `Errors_Model` on top of `Supercore_Model.DecompileFourCC` | case analysis over the bytes; digit induction |
| C73 | `Help_Model`: text and ending of the call, recursion over the registry with a stack bound | mutual induction over the description relation, rank induction |
| C74 | `Registry_Model`: the two maps, keys by Jenkins hash | induction over histories; concrete hash collision |
| C75 | `Stat_Model`: st_mode and attribute words | bit lemmas |
| C76 | `NodeName_Model`: suffixer state, sort, matrix signs | induction over histories, sorted permutations |
| C77 | `UnitTest_Model`: the macros as token pasting, read by a parser of the C++ operator levels; `UnitTest_Spec` says what a check should check | parser lemmas (fuel, extension, raising the level), induction over statements |
| C78 | `MaxEx_Model`: parameter blocks as maps, enumerator numbering, accessor tables, layer lists | computed table facts, list induction |
| C79 | `VecText_Model`: component texts and %f of dyadic numbers; `VecText_Spec` reads them back | digit induction, rounding lemma |
| C80 | `Pugiex_Model`: enumerator numbering, flags, child filter, error mapping; `Pugiex_Spec` has pugixml's own numbers | computed tables lifted by induction over flag sets |
| C81 | `BinFile_Model`: objects with a file, a fail bit and a pointer to a stream, and a file system; `BinFile_Spec`: what it means to have been opened | invariant over histories without moves, history induction |
| C82 | `Console_Model`: the escape text in its 32 byte buffer; the attribute word through `Flags_Model`; `Console_Spec`; `ConsoleTerm_Spec`: a terminal after ECMA-48, composed with the printers and threads of C25 | digit counting, bit lemmas on sixteen values, history induction |
| C83 | `AudioHeaders_Model`: the rule of structure layout, the four headers, member access, word swapping; `AudioHeaders_Spec`: the documented offsets | induction over members, finite tables, le/be lemmas of C03 |
| C84 | `FloatText_Model`: strtod/strtof and `%.6g`/`%.13g` of the C library on exact fractions, and SetNumber's handling of their errors; plugged into the reflector model as its environment. `FloatText_Spec`: numerals and IEEE patterns over the rationals; `FloatBack_*`: which values their text restores, and that C67 and C68 apply to them | exact rational arithmetic, rounding on a grid, uniqueness of digits near a short decimal |
| C85 | `VecNarrow_Model`: components as integers with the conversions of C++, squares, sum and root rounded to 53 bits; real components for the floating point classes | integer square roots and rounding error bounds; cases on component types |
| C86 | `HkPreset_Model`: SaveHKPreset on the document trees of C67, the scale through the `%.6g` of C84, the matrix through C76; `HkPreset_Spec`: the element a preset should be | length bounds, C84 and C76 |
| C87 | the models of C67 and C84; `XmlAgain_Spec`: an object described by what is asked of each of its values, floats at places apart from everything else | the text of a member depends on its bits only; the memory with every float replaced by what its text says is writable in the sense of C67 and has the same texts |
| C88 | the models of C68 and C84; `XmlAgain2_Spec`: as for C87, with the shapes the second format can hold | the text of a member, component or flag depends on its bits only; the same replacement of floats as in C87 |
| C89 | GetValues, GetTM, SetFrameRate and the builders of tuples over abstract single and double; Python objects as home, flag and count, with the histories of a script; `PyVal_Spec`: shapes, the initial components, the last assignment of a component, references and owner of an object from the history alone | the buffer after k times is the fold of the assignments; invariant: counts are the references of the history, released are exactly the owners whose count is zero; what an object points into never changes |

No property of the list is left unmodelled; parts of the repository that are not modelled are listed below.

## Trusted base

* The Coq 8.16.1 kernel, including its `vm_compute` reduction (used for finite sweeps and concrete cases).
  No plugins, no native compilation, no disabled checks, no axioms or parameters of our own.
* Standard-library axioms, only where real numbers occur (Coq.Reals is built on them):
  `ClassicalDedekindReals.sig_not_dec`, `ClassicalDedekindReals.sig_forall_dec`,
  `FunctionalExtensionality.functional_extensionality_dep`; and, in two theorems about the published Blowfish
  tables (`C51_tables_are_pi`, `C51_published_schedule`), `Classical_Prop.classic` and the kernel's 63-bit integers with the standard library's
  `Uint63` specifications of them.  The appendix lists, for every theorem, what `Print Assumptions` prints.
* The fidelity of the hand-written transcription to /repo.  The code is not executed here; the mutation log
  (`seeded/LOG.jsonl`) checks that the theorems notice changes of the transcription, not that the
  transcription is right.

Assumptions about the platform and libraries, made by the models (each model file says so again where it applies):

* x86-64, little endian, 64-bit `size_t`/pointers, 32-bit `int`, arithmetic right shift, two's complement.
  A shift by too much, a signed overflow, an access outside an object are `None` (undefined), except where a
  comment says that the compiled behaviour on x86 is taken.
* Floating point: `Coq.Floats.SpecFloat` at precision 24 / emax 128, round to nearest even, one rounding per
  operation (no contraction to fused multiply-add, no excess precision).  NaNs: SSE quieting is modelled where
  patterns are observable, payloads otherwise not tracked.  Theorems "in exact arithmetic" are over the reals.
* `std::log2` of an exact power of two is exact (C40).  `strtoull`, `stoll`, `to_string`, `atoll`: transcribed
  from the C and C++ standards.  Text <-> float conversion of the C library is a parameter of the reflector
  model (C34-C39, C67, C68); C84 instantiates it with a transcription of glibc's `strtod`, `strtof` and `%g`
  (correct rounding to nearest even, ERANGE for overflow and for inexact results that are tiny after rounding, C locale).
* std::iostream: contents + one position + state bits, file-like or string-like (C26-C30); short reads leave
  the target unchanged beyond what was read; the operating system never fails a read in the middle.
* Threads (C24, C25, C54): sequentially consistent interleavings of the statements of the model;
  `std::async` never fails to start a thread; thread_local state per thread.
* POSIX directory iteration delivers a fixed sequence during a scan; `mkdir` as in POSIX (C31, C32).
* libstdc++ 13 behaviour of `std::wstring_convert`/codecvt (C56).
* pugixml (C67, C68): only the in-memory tree; append_buffer of text without markup gives one text child or, for
  white space alone, none; serialising and parsing are not modelled.
* C54: pointer slots do not overlap.  C65: Save writes into an empty file from position 0, Load fills an empty
  object; alignment of the loaded records is ignored.

## What is modelled and what is not

Modelled (function by function, see the citations): `datas/base_128.hpp`, `endian.hpp`, `bitfield.hpp`,
`flags.hpp`, `supercore.hpp` (padding, FourCC, loops), `fileinfo.hpp`, `string_view` (all searching, comparing and
trimming), `allocator_hybrid.hpp`, `deleter_hybrid.hpp`, `encrypt/{xorenc,blowfish}`, `jenkinshash*.hpp`,
`multi_thread.hpp` (RunThreadedQueue), `master_printer*` with the console colours, the binary readers and writers
and their file objects, `directory_scanner.cpp` (POSIX), `stat.hpp`, `zip_vfs.hpp` with `formats/ZIP*`,
`reflector.cpp` and its headers (numbers, floating point text, enums, flags, arrays, nested objects),
`reflector_io.cpp`, `reflector_xml.cpp`, `reflector_db`, `pugiex.hpp`, `pointer.hpp`, `unicode.hpp`, `tchar.hpp`
(conversions), `except.hpp`, `settings_manager.hpp` (help text), `vectors_string.hpp`, `vectors_stream.hpp`,
`float.hpp`, `vectors.hpp`, `vectors_simd.hpp`, `matrix44.*`, `macroLoop.hpp`, `unit_testing.hpp`, `branch` helpers;
`formats/{addr_ps3,BlockDecoder*,DDS,WAVE,VAG,FWSE,XVAG,MSF}`; `uni/` format codecs, lists, vertex unpacking,
transform comparison, default implementations, the registry; `MAXex` node names and map helpers as far
as they do not call 3ds Max; the Python bindings' list and class wrappers.

Not modelled: `std::string` and C-string members in the XML and text reflector (they are in the binary dump);
the Windows branches other than the console colours; pugixml, CPython, 3ds Max and the bundled third-party
sources (only what the code asks of them); dialogs; `uni` interfaces that are pure declarations; conversions of
vectors and matrices to and from Python objects; GPU/IO code without semantics of its own.

## Appendix: Print Assumptions

Prints exactly `ClassicalDedekindReals.sig_forall_dec`, `ClassicalDedekindReals.sig_not_dec`, `FunctionalExtensionality.functional_extensionality_dep`:

`C45_compose_decompose`, `C45_decompose_compose`, `C45_decompose_one_sign`, `C45_full_transpose_product`, `C45_identity_unit`, `C45_inverse_columns`, `C45_inverse_product`, `C45_inverse_product_iff`, `C45_inverse_small_wrong`, `C45_inverse_translation_wrong`, `C45_matrix_readback`, `C45_product_associative`, `C45_product_entries`, `C45_quaternion_conjugate`, `C45_quaternion_product`, `C45_quaternion_readback`, `C45_quaternion_rotates`, `C45_quaternion_rotation`, `C45_rotate_entries`, `C45_rotate_isometry`, `C45_rotate_product`, `C45_rotate_product_needs_zero_lanes`, `C46_float_cross`, `C46_float_equality`, `C46_float_le_wrong`, `C46_float_normalized`, `C46_float_normalized_zero`, `C46_float_order`, `C46_float_symmetrical`, `C46_float_symmetrical_wrong`, `C46_quat_element`, `C46_quat_element_stale`, `C57_rts`, `C57_unpacks`, `C85_real_length`, `C85_real_normalize`.

Prints exactly `ClassicalDedekindReals.sig_forall_dec`, `ClassicalDedekindReals.sig_not_dec`, `Classical_Prop.classic`, `FunctionalExtensionality.functional_extensionality_dep`, `PrimInt63.add`, `PrimInt63.div`, `PrimInt63.eqb`, `PrimInt63.int`, `PrimInt63.land`, `PrimInt63.lsr`, `PrimInt63.ltb`, `PrimInt63.mul`, `PrimInt63.sub`, `Uint63.add_spec`, `Uint63.div_spec`, `Uint63.ltb_spec`, `Uint63.mul_spec`, `Uint63.sub_spec`:

`C51_published_schedule`, `C51_tables_are_pi`.

Prints exactly `ClassicalDedekindReals.sig_forall_dec`, `FunctionalExtensionality.functional_extensionality_dep`:

`C85_real_equal`.

Prints `Closed under the global context`:

`C01_buint128_length`, `C01_buint128_roundtrip`, `C01_buint128_sequence`, `C02_bint128_corrupted_interval_refuted`, `C02_bint128_overlong_refuted`, `C02_bint128_roundtrip`, `C02_bint128_sequence`, `C03_array_swap_elementwise`, `C03_array_swap_involution`, `C03_single_byte_throws`, `C03_swap_reverses_bytes_and_is_involutive`, `C04_get_after_set`, `C04_get_reads_own_bits`, `C04_member_positions`, `C04_members_disjoint`, `C04_set_frame`, `C04_set_preserves_other_members`, `C05_in_out_full_layout`, `C05_out_in_full_layout`, `C05_out_in_restores_members`, `C06_flags_construct`, `C06_flags_equality`, `C06_flags_history`, `C06_flags_index_past_store_ignored`, `C06_flags_query_bit`, `C07_is_pow2`, `C07_padding_least`, `C07_padding_other_alignment_refuted`, `C08_all_blank_reads_outside`, `C08_skip_end`, `C08_skip_start`, `C08_stripping_is_unique`, `C08_trim`, `C09_compile_bytes`, `C09_compile_injective`, `C09_non_ascii_refuted`, `C09_render_alnum`, `C09_render_injective`, `C10_decompose`, `C10_load_total`, `C11_dotted_directory_refuted`, `C11_filename`, `C11_filename_domain`, `C12_components_unique`, `C12_explode`, `C13_alloc_history`, `C13_copy_aliases_refuted`, `C13_external_never_deleted`, `C13_first_allocation_is_external`, `C13_growth_refuted`, `C14_ownership`, `C15_xor_bytes`, `C15_xor_bytes_ok`, `C15_xor_fails_iff`, `C15_xor_round_trip`, `C16_block_inverse`, `C16_block_is_blowfish`, `C16_block_permutation`, `C17_encode_is_the_mode`, `C17_large_buffers_refuted`, `C17_length_and_tail`, `C17_ofb_symmetric`, `C17_round_trip`, `C18_cannon_is_one_at_a_time`, `C18_cannon_single_character`, `C18_comparisons`, `C18_literal_agrees`, `C18_range`, `C18_wide_formula`, `C18_wide_single_character_refuted`, `C19_is_lookup3`, `C19_last_twelve_ignored_refuted`, `C19_trailing_nul_refuted`, `C20_compare_sign`, `C20_operators`, `C20_strict_total_order`, `C21_empty_set_refuted`, `C21_find_char`, `C21_find_char_last_refuted`, `C21_find_first_not_of`, `C21_find_first_of`, `C21_find_last_not_of`, `C21_find_last_of`, `C21_find_last_of_empty_refuted`, `C21_rfind_char`, `C22_find_view_exact`, `C22_find_view_no_skip`, `C22_find_view_refuted`, `C22_rfind_view_exact`, `C22_rfind_view_refuted`, `C23_at`, `C23_copy_exact`, `C23_substr`, `C24_always`, `C24_on_return`, `C24_returns`, `C24_zero_hardware_threads_refuted`, `C25_at_the_end`, `C25_bare_flush_refuted`, `C25_colour_broadcast_refuted`, `C25_colour_count_refuted`, `C25_every_moment`, `C25_no_deadlock`, `C25_register_twice`, `C25_registration`, `C25_thread_messages`, `C26_failure_is_permanent`, `C26_read_back`, `C26_records_read_back`, `C26_short_read_fails`, `C26_write_puts_encoding`, `C27_container_read_back`, `C27_elements_read_back`, `C27_lambda_read_back`, `C27_short_stream`, `C27_whole_container`, `C27_write_always_succeeds`, `C28_failed_reader_refuted`, `C28_string_read_back`, `C28_unterminated`, `C28_wide_string_read_back`, `C29_get_size`, `C29_nested_push_refuted`, `C29_push_pop`, `C29_seek_tell_identity`, `C29_seek_then_tell`, `C29_set_origin`, `C29_tell`, `C29_unusable_refuted`, `C30_padding`, `C30_reader_skip`, `C30_skip_backwards`, `C30_skip_erases`, `C30_writer_skip`, `C31_backslash_refuted`, `C31_quote_refuted`, `C31_scan`, `C32_many`, `C32_many_exist`, `C32_one`, `C33_contents`, `C33_hang_refuted`, `C33_listing`, `C33_rejects`, `C33_unknown_block`, `C34_bitfield`, `C34_bitfield_malformed_refuted`, `C34_bitfield_negative_refuted`, `C34_malformed`, `C34_newline_refuted`, `C34_no_member`, `C34_signed`, `C34_unsigned`, `C34_wide_bitfield_refuted`, `C35_bits_text`, `C35_bool`, `C35_bool_set`, `C35_bool_text`, `C35_int_arrays`, `C35_integers`, `C35_integers_text`, `C35_signed_bits_refuted`, `C35_unsigned_bits`, `C35_vector_arrays`, `C36_flags_round_trip`, `C36_flags_set`, `C36_get`, `C36_large_flag_refuted`, `C36_negative_refuted`, `C36_refused`, `C36_round_trip`, `C36_set`, `C36_unnamed_flag_refuted`, `C37_expressions_refuted`, `C37_names`, `C37_values`, `C38_array_any_text`, `C38_bool_overrun_refuted`, `C38_element_bound_refuted`, `C38_flag_get_refuted`, `C38_flag_set_refuted`, `C38_get_element`, `C38_get_out_of_range`, `C38_number_element_zero_refuted`, `C38_set_array`, `C38_set_element`, `C38_set_element_value`, `C38_set_no_bound_refuted`, `C38_silent_refuted`, `C39_low_signed_refuted`, `C39_member_error_lost_refuted`, `C39_other_class_refused`, `C39_other_member_count_refused`, `C39_round_trip`, `C39_two_levels_refuted`, `C39_unknown_members_skipped`, `C39_unsupported_refused`, `C40_bijective`, `C40_morton_order`, `C40_small_or_huge_refuted`, `C40_tall_injective`, `C40_tall_refuted`, `C41_bc2`, `C41_bc3`, `C41_bc4`, `C41_bc5`, `C41_bc5_ga`, `C41_palette_range`, `C42_bits_per_texel`, `C42_block_formats`, `C42_block_sizes`, `C42_consecutive`, `C42_known_bits_kept`, `C42_legacy_bits`, `C42_legacy_bits_agree`, `C42_mip_flags`, `C42_plain_sizes`, `C42_square_block_chain`, `C42_too_many_levels`, `C42_uyvy_unsized`, `C42_video_bits`, `C42_video_counts`, `C42_wrong_sizes`, `C43_channel_masks`, `C43_coded_formats`, `C43_forced_round_trip`, `C43_legacy_round_trip`, `C43_modern_round_trip`, `C43_named_formats`, `C43_other_fields_kept`, `C43_premultiplied_not_cleared`, `C43_refused`, `C43_same_bits`, `C44_FromFloat_loses`, `C44_FromFloat_subnormal`, `C44_FromFloat_truncates`, `C44_FromVector4_loses`, `C44_FromVector4_subnormal`, `C44_FromVector4_truncates`, `C44_ToFloat_exact`, `C44_ToFloat_negative_tiny_wrong`, `C44_ToVector4_exact`, `C44_float_5_5`, `C44_lanes_independent`, `C44_packed_ufloat_as_is`, `C44_packed_ufloat_wrong`, `C44_scalar_round_trip`, `C44_ufloat_6_5`, `C44_vector_round_trip`, `C45_full_transpose_entries`, `C45_full_transpose_involution`, `C45_identity_not_unit_infinite`, `C45_identity_unit_single`, `C45_transpose_entries`, `C45_transpose_involution`, `C46_compound_is_operator`, `C46_cross`, `C46_defined`, `C46_dot`, `C46_equality`, `C46_float_equality_asymmetric`, `C46_float_not`, `C46_float_roundtrip`, `C46_float_sign`, `C46_operator_lanes`, `C46_or_assign_four`, `C46_or_assign_wrong`, `C46_scalar_lanes`, `C46_sign`, `C46_simd_equality`, `C46_simd_lanes`, `C46_simd_not`, `C46_simd_shifts`, `C46_symmetrical`, `C46_to_float_exact`, `C46_to_int_nearest`, `C46_to_int_out_of_range`, `C46_unsigned_to_float_wrong`, `C47_FLOAT_half`, `C47_FLOAT_one_half`, `C47_FLOAT_packed`, `C47_FLOAT_single`, `C47_INT`, `C47_NORM`, `C47_NORM_unclamped`, `C47_UINT`, `C47_UNORM`, `C47_lanes_that_mix`, `C47_lanes_that_mix_wrong`, `C47_normalised_monotone`, `C47_packed_blue`, `C48_local`, `C48_one_value`, `C48_sample`, `C48_short_buffer_faults`, `C48_small_stride_throws`, `C48_tight_buffer`, `C49_descriptor`, `C49_get`, `C49_wrong_kind_throws`, `C50_accessor`, `C50_borrowed_owner`, `C50_iterators`, `C50_owning_owner_dangles`, `C50_shrinking_throws`, `C50_visits_all`, `C51_ascii_key_words`, `C51_interface_palindromes`, `C51_interface_refuted`, `C51_key_bytes_lost_refuted`, `C51_schedule_over_tables`, `C51_set_key_discards_vector`, `C51_set_key_usable`, `C51_through_interface`, `C52_bc1`, `C52_bc1a_opaque`, `C52_bc1a_transparent`, `C52_color_monotone_ends`, `C52_white_mean_not_white`, `C53_blue_exact`, `C53_blue_signed_char_undefined`, `C54_clear_then_reload`, `C54_fixup_once`, `C54_results`, `C54_second_fixup_refuted`, `C54_stale_address_refuted`, `C54_x86_assign`, `C54_x86_assign_null_refuted`, `C54_x86_reach`, `C55_adpcm_refuted`, `C55_calc_data`, `C55_data`, `C55_next_counts_header`, `C55_next_refuted`, `C55_other_formats`, `C55_riff_short_refuted`, `C55_riff_size`, `C55_sample_loops`, `C55_valid_chunk`, `C56_cut_short_refuted`, `C56_embedded_zero`, `C56_empty_refuted`, `C56_forms_exist`, `C56_malformed_throws`, `C56_pointer`, `C56_round_trip_2`, `C56_round_trip_4`, `C56_round_trip_4_refuted`, `C56_utf16_malformed_throws`, `C56_utf16_to_utf8`, `C56_utf32_malformed_throws`, `C56_utf32_to_utf8`, `C56_utf8_to_wide`, `C57_resample`, `C58_all_calls`, `C58_handlers_refuted`, `C58_modify_message_refuted`, `C58_modify_refuted`, `C59_far`, `C59_near`, `C59_other_sizes`, `C59_texels`, `C60_elements`, `C60_empty_array_refuted`, `C60_query`, `C60_query_none`, `C60_result`, `C61_bitfield_order_refuted`, `C61_description`, `C61_lookup`, `C61_no_alias_refuted`, `C61_pair`, `C61_pair_none`, `C61_pair_refuted`, `C61_same_member`, `C61_unit_refuted`, `C61_unknown`, `C62_alias_refuted`, `C62_bit_members`, `C62_elements`, `C62_kinds`, `C62_members`, `C62_nested_refuted`, `C62_vector_items`, `C63_first_element_refuted`, `C63_range_refuted`, `C63_refused`, `C63_set`, `C63_set_float`, `C64_extra_refuted`, `C64_last_lost_refuted`, `C64_limit`, `C64_loops`, `C65_alias_hash_pointer_misplaced`, `C65_alias_hashes_lost`, `C65_counts_believed`, `C65_file`, `C65_held_class_refuted`, `C65_held_enum_refuted`, `C65_refuses`, `C65_round_trip`, `C65_save_at_start`, `C65_save_elsewhere_refuted`, `C66_double_slash`, `C66_exact`, `C66_joins`, `C66_lone_slash_refuted`, `C66_other_place`, `C66_place_ending_with_name_refuted`, `C66_place_starting_with_name_refuted`, `C66_relative_file_loses_separator`, `C67_any_elements`, `C67_bytes`, `C67_class_node`, `C67_float_refuted`, `C67_float_values`, `C67_no_class_node`, `C67_round_trip`, `C67_second_refuted`, `C67_signed_bits_refuted`, `C67_unknown`, `C67_unnamed_refuted`, `C68_any_order`, `C68_any_part`, `C68_array_class_refuted`, `C68_axis_refuted`, `C68_class_node`, `C68_components_refuted`, `C68_flag31_refuted`, `C68_hashed_array_refuted`, `C68_no_class_node`, `C68_no_index`, `C68_round_trip`, `C68_unknown_attribute`, `C68_unknown_element`, `C68_unknown_element_refuted`, `C68_vector_array_refuted`, `C69_archive_round_trip`, `C69_end64_mixes_byte_orders`, `C69_reads_fields`, `C69_round_trip`, `C69_writes_central_file`, `C69_writes_end`, `C69_writes_end64`, `C69_writes_local_file`, `C69_writes_locator`, `C69_writes_signature`, `C70_compare`, `C70_compare_parts`, `C70_constructors`, `C70_legal_step`, `C70_modifier_history`, `C70_overrun_refuted`, `C70_reading`, `C70_substr`, `C70_swap`, `C71_bone_compare`, `C71_enum`, `C71_enum_names`, `C71_for_temporary_refuted`, `C71_for_visits_all`, `C71_loops_release_refuted`, `C71_module_enums`, `C71_nested_refuted`, `C71_parent_of_root_refuted`, `C71_protocol`, `C71_reflected_enum`, `C72_defined`, `C72_distinct`, `C72_header_message`, `C72_negative_refuted`, `C72_version_and_files`, `C73_every_member`, `C73_help`, `C73_help_all`, `C73_help_exists`, `C73_incomplete_refuted`, `C73_log`, `C73_log_refuted`, `C74_collision_refuted`, `C74_found`, `C74_kinds_apart`, `C74_last_wins`, `C74_unnamed_refuted`, `C75_file_type`, `C75_is_help`, `C75_socket_refuted`, `C75_windows`, `C76_ambiguous_refuted`, `C76_matrix`, `C76_matrix_refuted`, `C76_order_irrelevant`, `C76_suffix`, `C77_cancel_refuted`, `C77_cases`, `C77_check_any`, `C77_check_operator_refuted`, `C77_equal_operator_refuted`, `C77_function`, `C77_last_case_refuted`, `C78_accessors`, `C78_constructors`, `C78_delete`, `C78_maps`, `C78_negative_refuted`, `C78_resize`, `C78_resize_count`, `C79_float_text_refuted`, `C79_injective`, `C79_stream`, `C79_stream_bytes_refuted`, `C79_to_string_float`, `C79_to_string_int`, `C80_children`, `C80_flags`, `C80_load`, `C80_messages`, `C80_offset_refuted`, `C81_files`, `C81_move_refuted`, `C81_open`, `C81_reaches`, `C81_reopen_refuted`, `C82_escape`, `C82_escape_distinct`, `C82_escape_safe`, `C82_log_on_terminals`, `C82_lost_refuted`, `C82_restore_refuted`, `C82_terminal`, `C82_terminal_no_colour`, `C82_windows_colour`, `C82_windows_history`, `C83_big_endian`, `C83_bytes_swapped_refuted`, `C83_codecs`, `C83_fields`, `C83_headers`, `C83_layout`, `C83_signatures`, `C84_accuracy`, `C84_decimal_restored`, `C84_digits_survive`, `C84_invalid`, `C84_precision_refuted`, `C84_print`, `C84_print_zero`, `C84_restored`, `C84_same_text`, `C84_set_nearest`, `C84_set_too_large`, `C84_set_too_small`, `C84_set_zero`, `C84_settles`, `C84_sign_refuted`, `C84_smallest_normal_refuted`, `C84_special`, `C84_subnormal_refuted`, `C84_text_stable`, `C84_trailing_text_refuted`, `C85_classes`, `C85_convert`, `C85_length`, `C85_length_close`, `C85_length_refuted`, `C85_narrow_operators`, `C85_negate`, `C85_negate_refuted`, `C85_normalize`, `C85_normalize_refuted`, `C85_swap`, `C86_faithful`, `C86_matrix_refuted`, `C86_saved`, `C86_scale_restored`, `C87_again`, `C87_floats`, `C87_settled`, `C87_subnormal_refuted`, `C88_again`, `C88_floats`, `C88_settled`, `C88_subnormal_refuted`, `C89_blocks`, `C89_framerate`, `C89_latest`, `C89_lifetime`, `C89_lifetime_refuted`, `C89_not_numbers`, `C89_outcomes`, `C89_own_time_refuted`, `C89_owner`, `C89_safe`, `C89_transform`, `C89_transform_outcomes`, `C89_values`.
