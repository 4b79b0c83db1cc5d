# Formal model of sparcians/mavis in Rocq (Coq 8.16.1)

mavis is a C++ library that decodes RISC-V opcodes from JSON instruction
tables.  This directory holds a Gallina model of it and machine-checked
theorems.  `/repo` is read as text; it is neither built nor run.

## 1. Layout of the development (`rocq/theories`)

Files come in kinds, so that a statement can be read without its proof.

| kind | files | content |
|------|-------|---------|
| model | `M_*.v` | one definition per C++ function, each with a comment citing file and lines. No proofs. |
| spec | `S_*.v` | small independent specifications (RISC-V tables, abstract maps, ...). No reference to model helpers. |
| proofs | `L_*.v` | lemmas |
| data | `G_*.v` | generated by `tools/gen_*.py` from the files of `/repo` |
| conformance | `T_*.v` | the model run against the outputs the project expects (section 2.1) |
| claims | `P_*.v` | only the property theorems, each closed by `exact`, an `Example` beside each, `Print Assumptions` beneath |

### Modelling conventions

* Machine integers: `N`, with the wrap written out (`mod 2^64`, `mod 2^32`)
  wherever the C++ type can wrap. Signed results are `Z`.
* Outcomes: `Ok v | Throw e | AssertFail | UB`.  A failing `assert`, undefined
  behaviour (`__builtin_clzll(0)`, a shift by >= width, out-of-range index) and an exception
  are distinct outcomes and never defaulted.
* Shared pointers: factories, annotations, instructions are identified by ids
  in an explicit store where aliasing matters (C10, C11), and are plain values
  where it does not.
* JSON text parsing (nlohmann::json) and file I/O are not modelled.  The model starts from parsed
  records; section 5 lists what else is left out.

## 2. Trusted base

* Coq's kernel (and `vm_compute`, which the kernel uses for the table checks).
* The reading of the C++ source recorded in the `M_*.v` comments.
* For C38, the script that transcribed the shipped JSON tables to Coq records.
* Axioms: `Print Assumptions` under each theorem; see section 5.

### 2.1 Conformance of the model

The code cannot be run here, but its test driver (`test/basic/main.cpp`) and the output it must
produce (`test/basic/golden.out`) are in `/repo`.  `tools/gen_golden.py` turns them into Coq data
(G_Golden.v), and T_Golden.v runs the model on them.  All of it agrees:

* the seven printed decode trees, 3963 lines;
* 95 disassembly texts;
* 167 facts the driver prints or asserts about decoded opcodes;
* the tables and opcodes it expects to be refused;
* the 673 opcodes of four `.tset` files, which decode to the mnemonic named beside them.

These are tests of the reading of the C++ source, not theorems.  One thing they show about the test
suite: `test/basic/CMakeLists.txt` does not link the `.tset` files into the build directory, so
`golden.out` has no line from them.


## 3. Plan, property by property

| id | what is modelled | how it is proved |
|----|------------------|------------------|
| C01 | six root matchers | bit-level case analysis on the low 7+3 bits, against a length table |
| C02-C04 | trie: root, dense, special-case nodes; `build_`, `buildLeaf_`; `getInfo` | invariant of the trie by induction over the list of built instructions; refinement to a flat "best match in the table" specification |
| C05 | same | corollary of the refinement: the specification is order independent |
| C06 | same | refutation (witness tables) plus positive theorem under the explicit separation condition |
| C07 | `isIllop` of all extractors, `getInfo` | from C02-C04; per format against a table of the reserved bits (S_Reserved) |
| C08, C09 | opcode cache, instruction cache, per-factory stash, `getInfo`, `makeInst`, ... as a state machine | cache invariant: every line equals the pure decode of its tag; induction over histories |
| C10, C11 | same with an object heap | invariant on object identities; refutation for trace calls |
| C12 | registries | lookup lemmas |
| C13, C14 | `InstructionRegistry`, `UIDManager`, builder, `Mavis` | invariant over registration sequences, and over the operations of a program with several contexts |
| C15 | `Stash` | refinement to a last-write map |
| C16 | `Cache` | refinement to a last-write map, bound on opcodes, refutation beyond it |
| C17 | `DualKeyRegistry`, `SimpleDynArray` | refinement to two maps; refutation at the 32-bit wrap |
| C18 | `MatchSet`, filter of `configure` | iff-characterisation; refutation for untagged records |
| C19 | `Overlay`, `addOverlay`, `findMatchingOverlay_` | sortedness invariant; characterisation; refutation |
| C20 | `ContextRegistry`, `Mavis` | state machine, isolation by induction |
| C21-C22 | all `getImmediate`/`getSignedOffset` | bit-by-bit equality with tables of (immediate bit, instruction bit) pairs from the ISA manual |
| C23 | `signExtend_` | arithmetic |
| C24 | `Field`, `ConcatField`, the registered forms | bit lemmas; the forms by computation over the registry |
| C25-C28, C35-C37, C39 | all extractors of the extractor registry | per-extractor lemmas, then "for every extractor in the registry"; refutations where the code disagrees |
| C29 | the classification in the `DecodedInstructionInfo` constructor | against the RAS table |
| C30 | `InstMetaData` | bit lemmas |
| C31 | SWAR popcount, bit index loop | popcount by bit-block argument, loop by induction |
| C32 | direct extractors | induction on operand lists |
| C33 | `fixupOIList_` | induction |
| C34 | `AnnotationRegistry` | fold invariant |
| C38 | shipped tables as Coq data | instantiation of the general theorems; their hypotheses are decided by `vm_compute` |
| C40 | `OperandInfo` | invariant over `addElement` |
| C41 | `getSourceAddressRegs` of the load extractors | per-extractor lemmas; refutation for vector loads |
| C42, C44 | builder, trie and decode as a whole | refinement to a specification on the list of records; totality from C25 and the trie invariant |
| C43 | `getOpcode` | builder invariant |
| C45 | annotation lookup in factories and overlays | builder invariant over the configuration; refutations |
| C46 | special fields of pseudo-instructions | induction on the clause; builder invariant |
| C47 | register queries of `OpcodeInfo` (`M_OpcodeInfo`) against the operand lists | case analysis over formats; fields of a list are distinct |
| C48 | `InstMetaData` constructor, overrides and queries | every clause as acceptance test and as set of bits; induction over the lists |
| C49 | the shipped records through the whole decoder | the manuals' instruction list as a specification (S_Manual, S_Manual32, written from knowledge of the manuals, no copy being at hand); containment, overlap and specificity of patterns are checked by computation over mask/value pairs, lemmas lift the checks to all opcodes and all selections; register pairs have rows of their own (S_PairRows) |
| C50 | dasmString of every extractor class and of the direct extractors | a reader of lines (words, numerals, register names) as a specification; each format's line is read back by computation with symbolic fields; uniqueness by inverting the reader; names with "seg" are compared over all pairs of the shipped names |
| C51 | isHint of every extractor class; the shipped tables | a condition per format, proved by computation with symbolic opcodes; the HINT list of the manual as bit patterns, compared with the condition over every row of the tables |
| C52 | makeInstFromTrace with the extractor of the record, after any history | invariant over operations (unknown mnemonics have no factory and no cached information; the factory of a known one, or of nop or cmov, keeps its overlays, number and meta-data, and only the factory of the opcode's own instruction remembers it), then the call is computed with symbolic masks |
| C53 | trimming, splitting and reading of override texts; named files (M_Override) | trimming and splitting are characterised by decompositions of the text that are unique; then C34 |
| C54 | MatchSet with sorted lists for std::set (M_MatchSet); tags in the meta-data of decoded instructions | invariant over constructions and merges; sorted lists with the same members are equal; C42 for the tags |
| C55 | stoll, strtoull and the regular expression of the "isa" clause on strings (M_Text) | induction over the numeral and over the text; the texts of the shipped files (G_Texts) are read by computation and compared with G_Tables |
| C56 | `make_decoder` = builder, tree and configure as one function of all records | each step of the build is shown to succeed exactly under its condition on the records before it (`settles`); induction over the records |
| C57 | the printed form of the tree (`M_Print`), line by line | induction over the trie invariant; the lines are matched with the encodings up to order; refutations |
| C58 | every way in which construction throws or fails an assertion, by the kind of exception (`S_Blame`) | over the same invariant as C56, each step either keeps it or has the stated fault; induction over the records; refutations |
| C59 | the member dasm_ of every pseudo-factory, setPseudoInstDisassembler, annotations of extractors, dasmString (`M_PseudoDasm`, `S_PseudoDasm`) | induction over the calls: the builder changes by its stash only, each factory holds the newest disassembler of its UID; refutation |
| C60 | no new model; the records of one factory and the first of them (`S_Founder`) | invariant over the records in order: the factory of a name keeps the meta-data and stencil of its first record; for compressed instructions (`S_FounderC`) a second invariant: the merged meta-data is kept in the factory its expansion is registered under; refutations |
| C61 | no new model; the records that have a say in an opcode (`S_Local`) | from C42: both decoders select the same encoding of the same record and read it alike; annotations by C45's lemma on both sides; ids by monotonicity of configure; refutation |
| C62 | no new model; classes and sizes by patterns of opcode bits (`S_Classes`), no names | checker over rows and readings of the tables, sound for every part by C42 and the reserved sets of C07; both directions for whole tables; refutations |
| C63 | no new model (`M_Context`, `M_Pseudo`); acceptable configurations in terms of what the user supplies (`S_Config`) | verdict (accepted exactly if / exception with reason) for each step of the construction, UID counter bounded through the decoder's invariant of C56; refutations |
| C64 | no new model; precisions and widths by the opcode map (`S_Widths`, patterns as in `S_Manual`) | checker over (record, reading, row) of C62, by reflection on the generated tables; lemma that the operands of a reading have the types of its slots; the pattern sets are pairwise disjoint |
| C65 | no new model; `typed_once`, `coarse`, `masks_exact` in `S_Widths` | slot account of masks and lists (C28) refined to an equivalence; the coarse formats one by one under conditions on the meta-data; checker over the generated tables |
| C66 | `info_special` (M_DTable); fields by the opcode map (`S_Fields`, patterns as in `S_Manual`) | C35 for each format, then a checker over (record, reading, row) of C62: a reading that answers has a row inside the patterns, one that does not has a row outside them |
| C67 | The texts (`M_What`): constructors of the exceptions with the arguments that the throwing code passes; `mentions`, `shows`, `told` (`S_What`) | Which exceptions each step throws and on what (induction over clauses, the path in the tree, alias stencils, records and the UID list); the slot's mnemonic is that of the selected encoding by the tree invariant of C02 |
| C68 | As C42; `says` (`S_Says`) speaks of the texts of the records only (type, operand and ISA names), not of the functions that parse or merge them | C42 for the record and its meta-data; the parsing lemmas of C30 and C59; last-clause-wins by cases over the six clauses; the operand lists as slots (C27) |
| C69 | As C49; `S_Expand` lists the 32-bit opcode of each 16-bit instruction as a concatenation of its bits and constants, and `alike` compares the two answers | C49 for both opcodes; the bits of the second opcode are symbols (a constant or a bit of the first), so that for each row of the manual either it cannot fit the expansion, or a narrower row does, or operands and immediates agree symbol by symbol; checked by computation for the finitely many pairs of rows, for all operand values at once |
| C70 | The decoder of C03; `S_Trunc` defines the bits of the instruction, the comparison of two answers and the tables that keep to the length of their instructions (`tidy`) | every method of every extractor class is shown to depend on the low 16 or 32 bits only; the tree selects the same leaf for both opcodes because the same encodings match (no ties); all overlays of a leaf are of one instruction; `tidy` of the shipped tables by computation |
| C71 | Two decoders of C03; `S_Both` says when two tables define an instruction alike and lists the shared instructions whose records differ between RV32 and RV64 | the report is a function of the reading (C38), and equal records have equal readings; the records of the shipped tables are compared by computation; for the shifts the two extractor classes are compared method by method, with bit 25 clear because the RV32 encoding fixes it; the names (`S_BothNames`) by a checker, proved sound, that runs over all pairs of encodings: apart, hidden by a more specific encoding, of one name, or listed |
| C72 | no new model; `S_Builtin` says that no instruction of a name asks for another factory | invariant over the records in order: the built-in factories keep their meta-data and stencil, every UID and annotation kept in a factory under a name belongs to the instruction of that name or is the built-in one's; refutation |
| C73 | no new model; `S_ImmKind` derives the kind from the immediates of the manual rows | every reading (record or overlay, extractor, meta-data) of the shipped tables is computed once and compared with the rows of its name, as for C49; parts of a table read no more than the table; by cases over the extractors for C73_unsigned; refutation for each name left out |
| C74 | no new model beyond `M_Left` (the counter after a construction); `S_Numbers` lists the names in order and computes their numbers | invariant over the records: the registry holds exactly the names mentioned so far and the k-th new one has the k-th number; then induction over the calls of the program, of which only makeContext moves the counter; for trace records a step lemma: the name keeps its number, or had none and gets the counter's value, so the counter moves by as many as there are new names |
| C75 | no new model (`M_DTable.flush_caches`, `M_Trie.flush_tree`); `S_Forget` says which names trace records may use | every factory the tree can select is flushed (induction over the tree); calls leave the factories of the table as they are when the trace records' names have a number and an annotation already or are new; then the invariant of C11 with no disputed opcode |

## 4. Findings

Where the faithful model does not have a property, a theorem `..._refuted` gives a witness.
The positive theorem then carries the condition under which the property does hold.

| theorem | what the code does |
|---------|--------------------|
| C02_unseparated, C05_every_order | With c.ebreak listed before c.jalr, an opcode of c.add decodes as c.jalr, whose encoding it does not match, and decoding c.jalr fails an assertion. |
| C06_same | Two instructions with one encoding are accepted; the second is never decoded from its stencil. BuildErrorInstructionAlias is caught and printed on std::cerr. |
| C06_tie | Two encodings of equal specificity that both match an opcode are accepted; one of them silently wins. |
| C08_wide, C16_cache_last_store | The opcode cache keeps 32 bits of the opcode: two opcodes 1023 * 2^32 apart share a line and a tag. |
| C08_args | `makeInst` on a cache hit copies the cached object; the constructor arguments of the call are ignored. |
| C09_flush | `flushCaches` fails an assertion on an accepted table in which an alias could not be placed (c.ebreak before c.jalr). |
| C10_trace, C11_trace | The object returned by `makeInstFromTrace` is the cached object itself; changing it changes later copies. |
| C11_register, C20_trace | A trace record with an unknown mnemonic registers the mnemonic; its UID depends on what other contexts did. |
| C11_poison | A trace record that calls c.addi "addi" makes a later `getInfo` of that opcode answer "mv". |
| C12_names, C12_uid, C12_morph_uid | Compressed instructions and overlays cannot be made by name; an unassigned UID escapes as `std::out_of_range`; `morphInst` ignores the UID. |
| C13_large_uid, C17_array_wrap | Keys within 100 of 2^32 wrap the size of `SimpleDynArray`: undefined behaviour. |
| C13_failed_make | A `makeContext` that throws has used up UIDs: the contexts made afterwards number their instructions differently. |
| C75_records | `flushCaches` does not reach the factories made for names in trace records (they are not in the decode tree), nor nop and cmov: after a flush, a trace record for the same opcode and name is still answered with the registers of the record seen before it. |
| C75_factory_name | A trace record that uses the name of a factory that is no instruction gives that factory an annotation under its own name, which compressed instructions of the factory fall back on: their `getInfo` has another annotation from then on, also after `flushCaches`. |
| C13_unique_across_contexts_user | A UID the user gives in one context may be one the library chose in another. |
| C14_lookup | A user-chosen UID for a compressed mnemonic differs from the UID its decoded instructions report. |
| C21_prefetch_offset | The signed offset of the prefetch hints is never negative. |
| C22_slli_reports_no_immediate | c.slli has an immediate value but reports that it has no immediate. |
| C25_exceptions, C25_sdsp_x0, C38_pair | Each of 18 formats has a legal opcode and a record whose decoding fails an assertion or is undefined. One case is the legal c.sdsp x0 of RV32 with the shipped records. |
| C28_sp_loads, C28_cjalr | Stack-pointer loads whose record types rs2 report immediate bits as a typed source; c.jalr with only rd typed reports x0 as a typed destination. Neither register is in the untyped mask. |
| C30_isa_same_as | `isISASameAs` reports two instructions that both lack a queried extension as different. |
| C32_fixed_dest, C32_dest_type, C32_typed | A destination the instruction fixes takes the first register given (sfence.vma); in the witness a second destination typed long is reported as word, the type of the first; with fsd a source of one type is also in the mask of the other. |
| C34_override | An annotation override for a mnemonic in no annotation file is ignored. |
| C36_sd_pair, C36_sd_pair_x0, C39_sd_pair | The RV32 pair store flags no operand as store data; with x0 as data its sources include x0, which is neither address nor data; with base x0, suppressing x0 throws `out_of_range`. |
| C38_both | isa_rv32cf.json and isa_rv32zclsd.json use the same opcodes and are accepted together; 0x6000 is c.flw or c.ld depending on the order of the files. |
| C38_own_stencil | The stencil of the shipped c.jalr decodes as c.ebreak. |
| C39_x0_kept | CB, C1_rsd_zext_I0, C2_mv and C2_add keep x0 although it is suppressed. |
| C41_vector_load | Vector loads report no address registers. |
| C45_compressed, C45_factory | The annotation of a compressed mnemonic is never used; the annotation of a shared factory's name beats the instruction's own. |
| C49_every_row | Wrong rows of the tables. Patterns: `prefetch.*` also take opcodes of `ori x0` with bit 24 set; `vmadc.v?m`/`vmsbc.v?m` also take opcodes with vm = 1; the mask-logical instructions also take opcodes with vm = 0. Operands: the destination of `fleq/fltq`, `fle.q/flt.q/feq.q` and `fcvtmod.w.d` is typed floating-point; `fli.*` has a source register; a source of `fmvp.q.x` has no type; `ctz`, `cpop`, `sext.*`, `ctzw`, `cpopw` have an immediate; the offset of `prefetch.*` is divided by 32; `vfwmaccbf16` lacks its accumulator as source. RV32: `c.slli`, `c.srli`, `c.srai` also take opcodes with a sixth bit in the shift amount. |
| C49_ldsp_x0 | RV32 `c.ldsp` to x0, which is reserved, decodes. |
| C50_vset | `vsetvli` and `vsetivli` show bits 7:0 of the immediate only: opcodes with different immediates have one line. |
| C50_pair | An RV32 `ld`/`sd` pair at x0 shows x0 although no such operand is reported. |
| C50_fixed_csr, C50_mew | A CSRI instruction with a fixed CSR field shows CSR=0x0 whatever the CSR; a segment access with the reserved bit 28 throws from dasmString. |
| C50_comma | An instruction that fixes every register its format shows, and has an immediate or another field to show, gets a line with a stray comma: `pause\t, +0x10`.  The shipped tables have none (C50_tidy_shipped). |
| C50_ex | Not wrong but surprising: negative offsets are shown modulo 2^64, `addi x10,x10, +0xffffffffffffffff`. |
| C51_nop, C51_ntl | `c.nop` is reported to be a HINT and `c.nop` with an immediate, which is one, is not; `c.ntl.*` are not reported to be HINTs. |
| C51_wide | No 32-bit instruction is ever reported to be a HINT, not even `add x0, ra, sp`. |
| C52_repeat | The second trace record of an opcode and mnemonic reports the registers and the immediate of the first, whatever its own are. |
| C52_expansion | A trace record that calls c.addi "addi" makes an object that is still called c.addi and has the decoded registers. |
| C52_overlay | A trace record that calls add a0, a1, x0 "addi" makes an object called mv with the registers mv would have: overlays of the record's name are tried on the opcode, although it is not an opcode of that name. |
| C52_new_name | An instruction made from a trace record with an immediate reports that it has none (`hasImmediate`); its registers are in none of the integer, float or vector masks. |
| C53_malformed | An override that is not name:value executes `throw;` with no exception in flight: std::terminate, not an exception the caller could catch. |
| C53_no_file | The same override is accepted silently if no annotation file is named. |
| C54_tags | `getTags` of a compressed instruction does not have the tags of its own record (`c`) but those of its expansion (`i`, `g`). |
| C55_stencil_garbage | A stencil text that is not a number is used as far as it is one: "0x33;" is 0x33. |
| C55_match_garbage | A match text without any digit is 0; with such a mask the overlay applies to every opcode of its base. |
| C55_same_base | "010" is 16 as a stencil and 8 in "match". |
| C55_isa_dropped | The isa entry "32 I" loses its width, "IM" its M, and the width 4294967297 is read as 1. |
| C55_stencil | A stencil with bit 63 set cannot be written: stoll is signed and throws std::out_of_range. |
| C56_any_order_refuted | Records that refer to another one must come after it, across files too: a compressed instruction before its expansion is refused. |
| C57_abort_refuted | Printing a decoder fails an assertion when an alias of its table could not be placed (shipped records in another order). |
| C57_extractor_refuted | Records with xform I_load_pair, S_pair, HV_load or HV_store are shown with extractor I_load, S, R and R; with fixed fields, C2_sp_load_word_pair and C2_sp_store_word_pair as the double ones. |
| C57_overlays_refuted | Overlays are not shown: two decoders print alike and decode 0x8093 as addi and as mv. |
| C58_thrown_refuted | Two records whose encodings clash are refused by an exception in one order and by a failing assertion in the other (lui with add's opcode, after or before add). |
| C58_base_refuted | An overlay over an earlier compressed instruction is refused as "base not found". |
| C59_annotation_refuted | The text given to dasmAnnotate is stored and never shown, unless the user replaces the disassembler. |
| C60_meta_refuted | When records share a factory, only the first one's meta-data is used: lw made by the same factory as addi is decoded as an arithmetic instruction without data size. No exception is thrown. |
| C60_opcode_refuted | getOpcode("csrrs") is the stencil of csrrw, 0x1073, in the shipped isa_rv64zicsr.json (all six share the factory "csr"). |
| C60_overlay_refuted | Adding an overlay of addi takes away an overlay of lw when both share a factory: only the most specific overlay whose bits match is compared with the base mnemonic. |
| C56_alias_refuted | The alias stencils after a redundant one are dropped (a message on standard error names the redundant one only): a table whose later alias stencil clashes with another instruction is accepted, and that stencil is decoded as the other. |
| C61_every_refuted | Adding c.jalr to a table with c.ebreak makes 0x9086, unknown before, decode as c.jalr, which it does not match. |
| C62_omitted_refuted | Not flagged although the manuals put them in the class: the read-modify-write atomics as stores; `vsetvli`, `vsetivli`, `vsetvl` as vector (they have no type at all); vector multiplies as mul (vector divides are div); vector conversions and `fcvtmod.w.d` as convert; vector floating-point comparisons and `fleq`, `fltq` as compare; `vfclass.v` as classify. `prefetch.r` has data size 8. |
| C62_part_refuted | With c.add but without c.jalr, opcodes of c.jalr decode as c.add, so no jump. |
| C63_override_refuted | The annotation overrides given to Mavis are not passed to the builder of pseudo-instructions: an override of a pseudo-instruction has no effect, without any message. |
| C63_tags_refuted, C63_variants_refuted | Tag inclusions and exclusions are not applied to pseudo-instructions: one that is filtered out exists all the same, and two variants of a name of which the tags select one are refused as duplicates. |
| C64_untyped_refuted | cdiscard.d.l1, cflush.i.l1 and fmvp.q.x have a source register without a type: it is in the list of operands but in none of the typed queries. |
| C65_addiw_refuted | addiw and c.addiw of the RV64 table are typed both word and long: their registers are in the word masks and in the long masks, while the operand list says long only. |
| C65_pair_refuted | The RV32 pair store (sd) of x0 reports x0 in the long source mask, while its operand list has no such operand. |
| C66_extra_refuted | Special fields reported although the instruction has none: VM and WD of the scalar atomics (the bits of rl and aq), HINT of fence (the predecessor set), RM of fsgnj, fmin, fmax, the comparisons, fmv, fclass, fli and fcvtmod.w.d (where those bits are part of the opcode), VM of vmadc, vmsbc and the mask-logical instructions. |
| C67_form_refuted, C67_same_text_refuted | If the "xform" of a record is unknown, the message names the extractor but not the instruction (nor the file), so that the record has to be searched for. The same for a fixed field or operand name that is unknown. |
| C67_rs4_refuted | The message about operand rs4 calls it "rd4" (ofinames_). |
| C67_catch_refuted | BuildErrorOverlayBadMatchSpec is derived privately from BaseException ("class" without "public"), so neither `catch (const BaseException &)` nor `catch (const std::exception &)` catches it. |
| C68_compressed_refuted | A record with an "expand" clause may have "data", "isa" and operand clauses of its own, but only its types are used: everything else comes from the instruction it expands to. |
| C68_borrowed_refuted | The CJ and CJR extractors hard-code the type LONG for the destination register, whatever the operand clauses of the record say. |
| C69_unlike_refuted | c.nop reports no operands but nop reports x0 as destination and source; c.li reports source x0 but li none; c.sext.b and c.sext.h report offset 0 but sext.b and sext.h report 4 and 5 (bits of the opcode); c.mv x0, x2 is reported as an ordinary c.mv but its expansion as ntl.p1. |
| C69_shift_refuted | The RV32 tables accept compressed shifts by 32 and more (reserved for custom use); the instructions they would abbreviate are unknown. |
| C69_raw_refuted | getImmediate() of a compressed instruction with a negative immediate is not that of its expansion: 0x3F and 0xFFF for c.addi x1, -1 and addi x1, x1, -1. |
| C49_sd_marks_refuted, C69_marks_refuted | RV32: the register-pair store sd marks no register as stored, although c.sd and c.sdsp, which abbreviate it, do. |
| C70_untidy_refuted | Nothing stops a record from giving a 32-bit form the stencil of a 16-bit instruction; its operands are then read from beyond the end of the instruction. |
| C37_fixed_refuted | A record that asks for a register-pair extractor (I_load_pair) and has a fixed field gets a clone of another class: it reports one register instead of two and accepts odd registers. I_load_pair and S_pair do not override specialCaseClone, and the c.ldsp/c.sdsp classes clone to the 64-bit ones. No shipped record does this. |
| C71_text_refuted | The text of an RV32 shift form always ends in the shift amount (`SHAMTW=`), even where the table fixes that field: `clz x1,x1` is written `clz x1,x1, SHAMTW=0` with the RV32 table and `clz x1,x1` with the RV64 table. |
| C71_pairs_refuted | `ld` and its kin name a pair of registers in RV32 (as they should); the exclusion in C71 is needed. |
| C72_own_refuted | An instruction record called cmov (or nop), or one that asks for the factory cmov (or nop), silently gets the meta-data of the built-in instruction: a 32-bit load called cmov is decoded as a conditional move without data size, and getOpcode("cmov") is 0. |
| C72_compressed_refuted | A compressed instruction record called nop (or cmov) reports the UID of its expansion, but the UID looked up by its name is that of the built-in instruction, so the two disagree. |
| C73_every_name_refuted | Shift amounts (slli, srai, rori, bseti ...) and the offset of c.addi4spn are reported as signed immediates although they are unsigned; clz, ctz, cpop, sext.b, sext.h, c.zext.h, c.zext.w and nop are reported to have an immediate although they have none; c.slli is reported to have none although it has one. |

The shipped tables (C38_total_partial): no opcode below 2^64 fails an assertion or is undefined with
the RV64 files or with the RV32 files including isa_rv32cf.json.  With isa_rv32zclsd.json instead this
is proved but for the opcodes of c.sdsp with x0; C38_pair_refuted is a failing one.

Observed while assembling the tables: isa_rv32zclsd.json is accepted only after isa_rv32zilsd.json, which
has its expansions (C56_any_order_refuted shows the same with two records).

## 5. Assumptions listed by Coq

`Print Assumptions` beneath every theorem of the `P_*.v` files answers "Closed under the global
context": no axiom is used, neither of ours nor of the standard library.  The proofs use
`lia` (with its Zify hooks) and the standard library only.  A scan of loaded library files may list
parameters of the module types in `Coq.ssr.ssrunder`; they are declarations inside module types of the
standard distribution and no theorem depends on them.

Readings of C++ that the theorems depend on beyond the comments in `M_*.v`:

* `makeContext` evaluates the right-hand side of the map assignment before the subscript (C++17).
* Assertions are enabled.  Nothing is claimed about what follows a failing assertion when they are compiled out.
* Allocation succeeds and indices stay below `SIZE_MAX`.
* One thread: the library has no locks, and calls of one `Mavis` object are modelled as a sequence.
* The user's instruction class copies its whole state in its copy constructor and keeps the decode
  information it was made from.

Records hold numbers and split "isa" entries; how these are read from texts is modelled apart
(M_Text, C55).

Not modelled: JSON text, file names and I/O, regular expressions other than that of the "isa"
clause, the texts of exceptions about JSON files and pseudo-instructions (the others are in M_What), and disassemblers that keep a state of their own.
impl/DTableBuildSpecial.tcc defines templates that nothing calls, and mavis/FormStub.h the names
of forms without fields; both are left out.

## 6. Reading the mutation log

`seeded/LOG.jsonl` is produced with `seeded/mutate.py`.  The tool edits one definition, rebuilds, and
admits (in the scratch copy only) each lemma whose proof script breaks.  Its list of failed theorems
holds every theorem that then rests on such a lemma.  So a listed theorem is *no longer proved*; it
need not be false of the edited program, since a shared lemma may break for a reason that does not
concern it.  Conversely, an edit counts as caught only if a theorem of the claim that the edit
breaks is in the list.
