{"id": "C01", "title": "Instruction-length classes partition the opcode space", "statement": "The top level of the decoder assigns every opcode to exactly one length class, and that class is the one of the RISC-V length encoding (16, 32, 48, 64, 80-176, >=192 bit), so an instruction of one length can never be looked up among instructions of another length.", "quantifier": "every 64-bit opcode", "why_tests_cant": "2^64 opcodes; tests decode a few thousand", "anchors": ["mavis/DTable.h:DTable::DTable (root matchers)", "mavis/IFactory.h:IFactoryMatchListComposite"]}
{"id": "C02", "title": "Decoding is sound: the reported mnemonic's encoding really matches", "statement": "If decoding an opcode reports (non-overlay) mnemonic m, then m is an instruction that was configured and the opcode agrees with m's stencil on every opcode field m does not ignore and on every field m declares fixed.", "quantifier": "every instruction table that configures without error, every opcode", "why_tests_cant": "the table and the opcode are both unbounded; a wrong trie edge only shows for particular pairs", "anchors": ["mavis/DTable.h:DTable::getInfo", "impl/DTable.tcc:build_", "impl/DTable.tcc:buildLeaf_", "mavis/IFactory.h:IFactoryDenseComposite::getInfo", "mavis/IFactory.h:IFactorySpecialCaseComposite::getInfo"]}
{"id": "C03", "title": "Decoding is complete: a configured encoding is never reported unknown", "statement": "If an opcode agrees with the stencil of some configured instruction on its opcode fields and its fixed fields, decoding does not fail with UnknownOpcode.", "quantifier": "every well-formed instruction table, every opcode", "why_tests_cant": "same as C02, and absence of a failure over all opcodes", "anchors": ["mavis/DTable.h:DTable::getInfo", "impl/DTable.tcc:build_", "mavis/IFactory.h:IFactoryDenseComposite::getInfo"]}
{"id": "C04", "title": "The most specific encoding wins", "statement": "When several configured instructions match an opcode, the one reported is the one that specifies the earliest opcode field the others ignore and, among instructions specifying the same opcode fields, the one with the larger number of fixed fields.", "quantifier": "every well-formed instruction table, every opcode, every set of overlapping encodings", "why_tests_cant": "needs all overlapping pairs and all opcodes", "anchors": ["mavis/IFactory.h:IFactoryDenseComposite::getInfo", "mavis/IFactory.h:IFactorySpecialCaseComposite::addSpecialCase", "mavis/IFactory.h:IFactorySpecialCaseComposite::getInfo"]}
{"id": "C05", "title": "Decoding does not depend on the order of the instruction records", "statement": "Two configurations that contain the same instruction records in a different order decode every opcode to the same mnemonic (or the same failure).", "quantifier": "every permutation of every well-formed instruction table, every opcode", "why_tests_cant": "n! orders", "anchors": ["impl/DTable.tcc:configure", "impl/DTable.tcc:build_", "impl/DTable.tcc:buildLeaf_"]}
{"id": "C06", "title": "Encoding conflicts are reported, never silently absorbed", "statement": "If two configured instructions can match the same opcode with equal specificity, configuration reports a conflict; an accepted instruction is reachable by its own stencil.", "quantifier": "every instruction table", "why_tests_cant": "conflicts are pairwise over unbounded tables", "anchors": ["impl/DTable.tcc:buildLeaf_", "mavis/IFactory.h:IFactorySpecialCaseComposite::addSpecialCase", "mavis/IFactory.h:IFactorySpecialCaseComposite::addIFactory"]}
{"id": "C07", "title": "Reserved encodings raise IllegalOpcode and nothing else does", "statement": "Decoding fails with IllegalOpcode exactly when the encoding selected by the table is one its extractor calls reserved; a reserved encoding never decodes to another instruction.", "quantifier": "every table, every opcode", "why_tests_cant": "all opcodes of every compressed form", "anchors": ["mavis/IFactory.h:IFactorySpecialCaseComposite::getInfo", "impl/forms/ExtractorForms.h:isIllop", "impl/forms/ExtractorDerived.h:isIllop"]}
{"id": "C08", "title": "Decode results do not depend on history", "statement": "For any sequence of earlier decode calls, the result of decoding an opcode (mnemonic, UID, operand data, opcode value, or the exception) is the same as on a freshly constructed decoder.", "quantifier": "every finite history of getInfo/makeInst/makeInstDirectly/flushCaches calls, every opcode", "why_tests_cant": "histories are unbounded and cache collisions are rare", "anchors": ["mavis/DTable.h:DTable::Cache", "mavis/DTable.h:DTable::getInfo", "mavis/IFactory.h:IFactory::getInfo", "mavis/Stash.hpp:Stash"]}
{"id": "C09", "title": "flushCaches has no observable effect on decoding", "statement": "Inserting flushCaches anywhere in a sequence of decode calls changes no result of the other calls.", "quantifier": "every history and every insertion point", "why_tests_cant": "histories are unbounded", "anchors": ["mavis/DTable.h:DTable::flushCaches", "mavis/Mavis.h:Mavis::flushCaches"]}
{"id": "C10", "title": "Instructions made from the same opcode are distinct objects", "statement": "makeInst never returns the cached instruction object itself nor an object returned before, so mutating one instruction cannot change another.", "quantifier": "every history of makeInst/makeInstFromTrace calls", "why_tests_cant": "aliasing shows only for particular call sequences", "anchors": ["mavis/DTable.h:DTable::makeInst", "mavis/DTable.h:DTable::makeInstFromTrace"]}
{"id": "C11", "title": "Trace-driven decode does not leak into later decodes", "statement": "Making an instruction from a trace record does not change what later makeInst/getInfo calls return for the same opcode.", "quantifier": "every history containing trace calls", "why_tests_cant": "histories are unbounded", "anchors": ["mavis/DTable.h:DTable::makeInstFromTrace", "mavis/IFactory.h:IFactory::getInfo"]}
{"id": "C12", "title": "Direct construction finds exactly the named instruction", "statement": "makeInstDirectly and morphInst with a mnemonic (or a UID) use the instruction registered under that mnemonic (UID), and fail with UnknownMnemonic when there is none.", "quantifier": "every registry state, every mnemonic and UID", "why_tests_cant": "all registry contents", "anchors": ["mavis/DTable.h:DTable::makeInstDirectly", "mavis/DTable.h:DTable::morphInst", "mavis/BuilderBase.hpp:findIFact"]}
{"id": "C13", "title": "UIDs are stable and unique", "statement": "A mnemonic keeps the first UID it gets; two mnemonics have the same UID only if one was registered as an expansion alias of the other or the user supplied that UID; lookups by mnemonic and by UID invert each other for non-alias mnemonics; UID 0 is never assigned.", "quantifier": "every sequence of registrations in every number of contexts", "why_tests_cant": "unbounded sequences", "anchors": ["mavis/InstructionRegistry.hpp:InstructionRegistry", "mavis/DecoderConsts.h:INVALID_UID"]}
{"id": "C14", "title": "Compressed instructions carry the UID of their expansion", "statement": "An instruction configured with an expansion is reported with the UID of the expansion and its own mnemonic.", "quantifier": "every table with expansions, every matching opcode", "why_tests_cant": "all tables", "anchors": ["mavis/IFactoryBuilder.h:IFactoryBuilder::build", "mavis/InstructionRegistry.hpp:aliasInstWithUID"]}
{"id": "C15", "title": "Stash returns only what was last stored under the key", "statement": "A stash lookup either misses or returns the value most recently stored under exactly that key; a lookup immediately after a store of that key hits.", "quantifier": "every sequence of stores and lookups, every key, every table size", "why_tests_cant": "collision patterns depend on the whole history", "anchors": ["mavis/Stash.hpp:Stash::set", "mavis/Stash.hpp:Stash::lookup"]}
{"id": "C16", "title": "Opcode cache returns only what was last stored under the opcode", "statement": "A cache lookup either misses or returns the object most recently stored for exactly that opcode.", "quantifier": "every sequence of allocations and lookups, every 64-bit opcode", "why_tests_cant": "collision patterns depend on the whole history", "anchors": ["mavis/DTable.h:DTable::Cache::lookup", "mavis/DTable.h:DTable::Cache::allocate"]}
{"id": "C17", "title": "Dual-key registry lookups agree with additions", "statement": "After any sequence of additions, string lookup returns the object added under that string, numeric lookup returns the object most recently added under that number, and missing keys are reported, never defaulted.", "quantifier": "every sequence of additions and lookups incl. growth", "why_tests_cant": "unbounded sequences; growth boundary", "anchors": ["mavis/DualKeyRegistry.hpp:DualKeyRegistry", "mavis/SimpleDynArray.hpp:SimpleDynArray"]}
{"id": "C18", "title": "Tag filtering keeps exactly the selected instructions", "statement": "An instruction record is configured iff it matches some inclusion (or none are given) and matches no exclusion.", "quantifier": "every tag set, every inclusion and exclusion pattern set", "why_tests_cant": "unbounded sets of patterns", "anchors": ["impl/DTable.tcc:configure", "mavis/MatchSet.hpp:MatchSet"]}
{"id": "C19", "title": "Overlays replace exactly the opcodes they match", "statement": "An opcode decodes to an overlay iff it decodes to the overlay's base mnemonic and matches the overlay's mask/value; when several overlays of that base match, the one with the most mask bits is used.", "quantifier": "every set of overlays, every opcode", "why_tests_cant": "unbounded overlay sets", "anchors": ["mavis/Overlay.hpp:Overlay", "mavis/IFactory.h:IFactory::addOverlay", "mavis/IFactory.h:IFactory::findMatchingOverlay_"]}
{"id": "C20", "title": "Contexts are isolated", "statement": "Creating or using one context never changes what another context decodes; switching back and forth restores the same behaviour; duplicate and unknown names are reported and leave the state unchanged.", "quantifier": "every sequence of makeContext/switchContext/decode calls", "why_tests_cant": "unbounded sequences", "anchors": ["mavis/ContextRegistry.hpp:ContextRegistry", "mavis/Mavis.h:Mavis::switchContext"]}
{"id": "C21", "title": "Immediates of 32-bit formats are the ISA's immediates", "statement": "For I, S, B, U, J (and shift, CSR, vector) formats, every bit of the reported immediate is the instruction bit the RISC-V manual assigns to it, and the signed offset is the two's-complement value of that immediate.", "quantifier": "every 64-bit opcode, every fixed-field mask", "why_tests_cant": "2^32 encodings per format", "anchors": ["impl/forms/ExtractorForms.h:getImmediate", "impl/forms/ExtractorForms.h:getSignedOffset", "mavis/Extractor.h:signExtend_"]}
{"id": "C22", "title": "Immediates of compressed formats are the ISA's immediates", "statement": "Same as C21 for every compressed format, including scaled load/store offsets, stack-pointer adjustments and branch offsets.", "quantifier": "every 64-bit opcode", "why_tests_cant": "2^16 encodings per format and dozens of bit permutations", "anchors": ["impl/forms/ExtractorForms.h:getImmediate", "impl/forms/ExtractorDerived.h:getImmediate", "mavis/Swizzler.hpp:Swizzler"]}
{"id": "C23", "title": "Sign extension is two's complement", "statement": "signExtend_(v, pos) is the unique integer congruent to v modulo 2^(pos+1) in [-2^pos, 2^pos).", "quantifier": "every 64-bit value, every bit position 0..63", "why_tests_cant": "64 * 2^64 cases", "anchors": ["mavis/Extractor.h:signExtend_"]}
{"id": "C24", "title": "Field extraction is exact", "statement": "Extracting a field returns the value that was placed in it, is independent of all other bits, is smaller than 2^len, and extracting disjoint fields does not interact.", "quantifier": "every field geometry, every opcode", "why_tests_cant": "all geometries and opcodes", "anchors": ["mavis/Field.h:Field::extract", "mavis/Field.h:Field::getShiftedMask", "mavis/Field.h:ConcatField"]}
{"id": "C25", "title": "Operand lists agree with register masks", "statement": "For every decoded instruction, every register in the operand list is in the corresponding register mask (overall and per operand type) and a non-empty mask has a non-empty list, so the decoder's internal consistency assertions never abort.", "quantifier": "every extractor in the registry, every opcode, every fixed-field set, every consistent operand typing", "why_tests_cant": "80 extractors times all opcodes", "anchors": ["mavis/DecodedInstInfo.h:agree_opinfo_", "mavis/DecodedInstInfo.h:DecodedInstructionInfo", "impl/forms/ExtractorForms.h", "impl/forms/ExtractorDerived.h"]}
{"id": "C26", "title": "Fixed fields are not operands", "statement": "A register field that the instruction declares fixed contributes no register to any mask or operand list.", "quantifier": "every extractor, every opcode, every fixed-field set", "why_tests_cant": "all combinations", "anchors": ["mavis/Extractor.h:extractUnmaskedIndexBit_", "mavis/Extractor.h:appendUnmaskedOperandInfo_"]}
{"id": "C27", "title": "Reported registers are architectural", "statement": "Every register number in a register mask or an operand list of a decoded instruction is at most 31.", "quantifier": "every extractor, every legal opcode", "why_tests_cant": "all opcodes; the pair forms compute rd+1", "anchors": ["impl/forms/ExtractorForms.h:getSourceRegs", "impl/forms/ExtractorDerived.h:getDestRegs"]}
{"id": "C28", "title": "Typed register masks are sub-masks of the overall masks", "statement": "The mask of registers of a given operand type is contained in the overall source (destination) mask, and under a typing that assigns every field exactly one type the typed masks together cover the overall mask.", "quantifier": "every extractor, every opcode, every operand typing", "why_tests_cant": "all combinations", "anchors": ["impl/forms/ExtractorForms.h:getSourceOperTypeRegs", "mavis/InstMetaData.h:isOperandType"]}
{"id": "C29", "title": "Jumps are classified as the ISA's return-address-stack table says", "statement": "A JAL/JALR is CALL iff its destination is x1 or x5, RETURN iff its source is x1 or x5 and not the same register as its link destination, INDIRECT iff its source is any other register than x0.", "quantifier": "every jump opcode and all register pairs, compressed and uncompressed", "why_tests_cant": "all combinations through all jump extractors", "anchors": ["mavis/DecodedInstInfo.h:DecodedInstructionInfo", "mavis/DecodedInstInfo.h:hasSourceReg_"]}
{"id": "C30", "title": "Instruction-type queries mean what they say", "statement": "isInstType is true iff all queried bits are present, AnyOf/AllOf iff some/all, merging meta-data keeps every type of both, same-as compares exactly the queried types.", "quantifier": "every type set and query", "why_tests_cant": "2^64 type sets", "anchors": ["mavis/InstMetaData.h:isInstType", "mavis/InstMetaData.h:merge", "mavis/InstMetaData.h:isInstTypeSameAs", "mavis/InstMetaData.h:isISASameAs"]}
{"id": "C31", "title": "Bit masks and register lists convert without loss", "statement": "Converting a register mask to a list gives exactly the set bit positions in increasing order (and the bit count is the population count); converting back gives the mask.", "quantifier": "every 64-bit mask", "why_tests_cant": "2^64 masks", "anchors": ["mavis/DecodedInstInfo.h:getVectorOfBitIndices_", "mavis/DecodedInstInfo.h:count1Bits_", "mavis/ExtractorTraceInfo.h:bitmaskToRegList_", "mavis/Overlay.hpp:count1Bits_"]}
{"id": "C32", "title": "Directly supplied operands get the right field ids", "statement": "Operands handed to makeInstDirectly are reported in order, with the register numbers supplied, under the successive source (destination) field ids that the instruction does not fix, with the types the instruction's meta-data assigns.", "quantifier": "every operand list within the limits, every fixed-field set", "why_tests_cant": "all combinations", "anchors": ["mavis/ExtractorDirectInfo.h:ExtractorDirectInfo::getSourceOperandInfo", "mavis/ExtractorDirectInfo.h:ExtractorDirectInfo::getDestOperandInfo"]}
{"id": "C33", "title": "Pseudo-instruction operands are renamed positionally", "statement": "For a pseudo-instruction, the i-th supplied operand without a field id receives the i-th field id of its form; operands that already have one keep it; none is lost or reordered.", "quantifier": "every operand list and every form", "why_tests_cant": "unbounded lists", "anchors": ["mavis/FormGeneric.hpp:fixupOIList_", "mavis/ExtractorWrap.hpp:ExtractorWrap"]}
{"id": "C34", "title": "Later annotation files and overrides win", "statement": "The annotation of a mnemonic reflects, per attribute, the override if there is one, else the last file that sets it; a mnemonic twice in one file is reported.", "quantifier": "every list of annotation files and overrides", "why_tests_cant": "unbounded lists", "anchors": ["mavis/AnnotationRegistry.hpp:AnnotationRegistry"]}
{"id": "C35", "title": "Special fields are exact bits or an exception", "statement": "getSpecialField returns exactly the instruction bits the format assigns to that field, or reports that the field is unsupported; it never returns a default.", "quantifier": "every extractor, every special field, every opcode", "why_tests_cant": "80 extractors x 12 fields x all opcodes", "anchors": ["impl/forms/ExtractorForms.h:getSpecialField", "mavis/Extractor.h:getSpecialField"]}
{"id": "C36", "title": "Store address and data registers split the sources", "statement": "For every store format, the address registers and the data registers together are the sources, and an operand is flagged as store data iff it is a data register operand.", "quantifier": "every store extractor, every opcode", "why_tests_cant": "all opcodes", "anchors": ["impl/forms/ExtractorForms.h:getSourceAddressRegs", "impl/forms/ExtractorForms.h:getSourceDataRegs", "impl/forms/ExtractorDerived.h"]}
{"id": "C37", "title": "RV32 register-pair loads and stores use the even/odd pair", "statement": "A legal pair load (store) with first register r reports exactly r and r+1 as data registers (none when r is x0), odd r is illegal.", "quantifier": "every pair-form opcode", "why_tests_cant": "all opcodes and fixed-field sets", "anchors": ["impl/forms/ExtractorDerived.h:Extractor<Form_I_load_pair>", "impl/forms/ExtractorDerived.h:Extractor<Form_S_Pair>"]}
{"id": "C38", "title": "The shipped ISA tables decode every instruction they list", "statement": "Loading all shipped RV64 (RV32) files succeeds; each listed instruction's own stencil decodes to it (or to an overlay of it); C02-C07 hold of these tables for every opcode.", "quantifier": "every opcode and every record of the shipped tables", "why_tests_cant": "2^32 opcodes times about 900 records", "anchors": ["json/isa_rv64*.json", "json/isa_rv32*.json", "impl/DTable.tcc"]}
{"id": "C39", "title": "suppress_x0 removes exactly the x0 operands", "statement": "Asking for operand information with x0 suppressed gives the list without suppression minus the operands that are register x0.", "quantifier": "every extractor, every opcode, every typing", "why_tests_cant": "all combinations", "anchors": ["mavis/Extractor.h:appendUnmaskedOperandInfo_", "impl/forms/ExtractorForms.h:getSourceOperandInfo"]}
{"id": "C40", "title": "Operand counts are the lengths of the operand lists", "statement": "The total operand count equals the number of operands, the count per type equals the number of distinct operand fields of that type, and field queries return the value of the unique operand with that field or report its absence.", "quantifier": "every sequence of operand additions", "why_tests_cant": "unbounded sequences", "anchors": ["mavis/OperandInfo.hpp:OperandInfo"]}
{"id": "C41", "title": "Load address registers", "statement": "The address registers reported for a load are exactly its source registers and it has no data registers; an instruction that is neither load nor store reports neither.", "quantifier": "every extractor, every set of fixed fields, every opcode", "why_tests_cant": "all opcodes and formats", "anchors": ["impl/forms/ExtractorForms.h:getSourceAddressRegs", "impl/forms/ExtractorDerived.h:getSourceAddressRegs"]}
{"id": "C42", "title": "Every decode answer is the one the records prescribe", "statement": "For every opcode the answer of the decoder is: UnknownOpcode if no record's encoding matches; else, for the most specific matching record, IllegalOpcode if its format calls the opcode reserved; else the mnemonic, UID, meta-data and operand information that the record (its overlay, its expansion) prescribes, read by the record's own extractor.", "quantifier": "every well-formed instruction table, every opcode", "why_tests_cant": "table and opcode are both unbounded", "anchors": ["mavis/IFactory.h:IFactory::getInfo", "mavis/IFactoryBuilder.h:IFactoryBuilder::build", "impl/DTable.tcc:parseInstInfo_"]}
{"id": "C43", "title": "getOpcode returns the stencil", "statement": "Asking for the opcode of a configured mnemonic returns the stencil its record gives.", "quantifier": "every table, every mnemonic that does not share its factory", "why_tests_cant": "all tables", "anchors": ["mavis/Mavis.h:getOpcode", "mavis/IFactoryBuilder.h:IFactoryBuilder::build"]}
{"id": "C44", "title": "Decoding never aborts", "statement": "Decoding any 64-bit opcode either returns, or throws UnknownOpcode or IllegalOpcode; no assertion fails, nothing undefined happens and no other exception escapes.", "quantifier": "every well-formed table whose operand typings fit their formats, every opcode", "why_tests_cant": "2^64 opcodes per table", "anchors": ["mavis/DTable.h:DTable::getInfo", "mavis/DecodedInstInfo.h:DecodedInstructionInfo"]}
{"id": "C45", "title": "A decoded instruction reports its own annotation", "statement": "The annotation returned with a decoded instruction is the one the annotation files (and overrides) give for its mnemonic; an overlay without an annotation takes that of its base, a compressed instruction that of its expansion, an instruction that names a factory that of the factory.", "quantifier": "every annotation content, every well-formed table, every opcode", "why_tests_cant": "every combination of annotated and unannotated mnemonics, bases, factories and expansions, and every opcode", "anchors": ["mavis/IFactoryBuilder.h:IFactoryBuilder::build", "mavis/IFactoryBuilder.h:IFactoryBuilder::buildOverlay", "mavis/IFactory.h:IFactory::findAnnotation_", "mavis/DTable.h:DTable::getInfo"]}
{"id": "C46", "title": "Special fields of pseudo-instructions are positional", "statement": "For an instruction made by makePseudoInst, the special field named at position i of the record's specials clause reads as the i-th special value handed in; a special field the record does not name is reported as unsupported.", "quantifier": "every configured set of pseudo-instructions, every call history, every record, every list of special values, every special field", "why_tests_cant": "unbounded tables, lists and histories", "anchors": ["mavis/FormGeneric.hpp:FormGeneric", "mavis/ExtractorWrap.hpp:getSpecialField", "mavis/Mavis.h:makePseudoInst"]}
{"id": "C47", "title": "Register queries by type count the reported operands", "statement": "For a decoded instruction, the number of source (destination) registers, of integer, floating-point and vector ones and of each operand type equals the number of reported operands of that type; the mask of integer (floating-point) registers is the union of the masks of its types; the counts over both sides add up without wrapping.", "quantifier": "every extractor class, fixed-field mask, meta-data and opcode", "why_tests_cant": "2^32 opcodes for each of some eighty formats and every operand typing of a record", "anchors": ["mavis/OpcodeInfo.h:OpcodeInfo", "mavis/DecodedInstInfo.h:DecodedInstructionInfo", "mavis/OperandInfo.hpp:OperandInfo"]}
{"id": "C48", "title": "Records are accepted exactly when they make sense, and reported as written", "statement": "A record is accepted exactly when every type name, operand field name and ISA letter in it is known, its data size is zero or a power of two below 2^31 and its ISA widths are powers of two; any other record is refused with an exception. Of an accepted record the library reports the types, data size, tags, ISA extensions and widths it names and no others; annotation overrides add types and tags, may change the data size, and change nothing else.", "quantifier": "every record content and every override", "why_tests_cant": "Records and combinations of clauses are unbounded; tests use the shipped ones, which are all acceptable.", "anchors": ["mavis/InstMetaData.h:InstMetaData", "mavis/InstMetaData.h:parseOverrides", "mavis/InstMetaData.h:isISA", "mavis/InstMetaData.h:isISAWidth", "mavis/InstMetaData.h:getDataSize"]}
{"id": "C49", "title": "The shipped tables say what the RISC-V manuals say", "statement": "With any selection of the shipped RV64 (RV32) records: an opcode decodes to the instruction whose bit pattern in the manuals it has (the narrowest configured one), with the registers, register files, operand roles and immediate the manuals give; it is unknown only if no configured instruction has it; with all files it is illegal exactly if the manuals reserve it.", "quantifier": "every opcode, every selection of records of the shipped files", "why_tests_cant": "About 800 instructions times 2^32 opcodes times all selections of files and tags; unit tests compare a few hundred opcodes with recorded output of the library itself.", "anchors": ["json/isa_rv*.json", "mavis/DecoderTypes.h", "impl/forms/ExtractorForms.h", "impl/forms/ExtractorDerived.h", "mavis/DTable.h:getInfo"]}
{"id": "C50", "title": "The disassembly line says what was decoded", "statement": "For every decoded opcode, dasmString returns a line whose words are the mnemonic (with the number of fields inserted for a vector segment access), the register operands the decoder reports, in assembly order with register file and number, and the immediate and other fields of the format; the words can be read back, and every comma stands between two of them. Two opcodes with the same line are the same instruction with the same operands and immediate. An instruction made without an opcode shows the registers and the immediate it was given.", "quantifier": "every opcode, instruction format, set of fixed fields and operand typing; every decoder made from the shipped tables; every direct extractor", "why_tests_cant": "Tests compare the text of some hundred opcodes with recorded output; that the text never disagrees with the operands and never stands for two different instructions ranges over all pairs of opcodes.", "anchors": ["impl/forms/ExtractorForms.h:dasmString", "impl/forms/ExtractorDerived.h:dasmString", "mavis/ExtractorDirectInfo.h:dasmString", "mavis/OpcodeInfo.h:dasmString", "mavis/Disassembler.hpp:toString"]}
{"id": "C51", "title": "isHint tells the HINT encodings", "statement": "isHint answers for every opcode, and an opcode decoded as a compressed instruction is reported to be a HINT exactly if the manual lists it among the HINTs of the C extension: rd is x0 (c.li, c.lui, c.slli, c.mv, c.add) or the immediate is 0 (c.addi, c.slli, c.srli, c.srai), or it is c.nop with an immediate. No other opcode of the C extension is.", "quantifier": "every opcode, instruction format and set of fixed fields; every decoder made from any part of the shipped tables", "why_tests_cant": "Tests look at isHint of a few opcodes; that no ordinary instruction is called a HINT and no HINT is missed ranges over all opcodes and all selections of instructions.", "anchors": ["impl/forms/ExtractorDerived.h:isHint", "impl/forms/ExtractorForms.h:isHint", "mavis/DecodedInstInfo.h:isHint", "mavis/OpcodeInfo.h:isHint"]}
{"id": "C52", "title": "An instruction made from a trace record reports what the record says", "statement": "makeInstFromTrace of an opcode that makeInst refuses, or decodes to the record's mnemonic, answers like makeInst. If the decoder disagrees with the record's mnemonic, the object reports the record's mnemonic, opcode, source registers, destination registers and immediate, the annotation of that mnemonic, and the unique ID that lookupInstructionUniqueID then gives.", "quantifier": "every table of instructions, every history of calls, every opcode, mnemonic, register masks and immediate of the record", "why_tests_cant": "The answer depends on what the caches hold, that is on all calls before it, and on 64-bit masks; tests try a single record on a fresh decoder.", "anchors": ["mavis/Mavis.h:makeInstFromTrace", "mavis/DTable.h:makeInstFromTrace", "mavis/ExtractorTraceInfo.h:ExtractorTraceInfo", "mavis/DTable.h:buildInfo_"]}
{"id": "C53", "title": "Annotation overrides are read as name:value", "statement": "An override is a mnemonic and a text name:value, white space around each part aside; the value may contain colons. Annotations are made from named files exactly if every override has this form with a JSON value, every file can be read and no file repeats a mnemonic; then an attribute has the value of the last override that names it, or else of the last record in the files that sets it. An override of another form is reported.", "quantifier": "every list of override texts, every list of files, every JSON parser", "why_tests_cant": "Tests use two well-formed overrides; that no text is misread or passed over ranges over all strings and all lists of files.", "anchors": ["mavis/AnnotationRegistry.hpp:AnnotationRegistry", "mavis/AnnotationRegistry.hpp:string_ws_trim", "mavis/DecoderTypes.h:AnnotationOverrides"]}
{"id": "C54", "title": "Tag sets behave like sets, and instructions have the tags of their records", "statement": "However a MatchSet was made and merged, isMember, isEmpty and getV tell the strings put into it, the match queries are the quantifiers they are named after, and after a merge only the members count. getTags of a decoded instruction is the set of tags of its record, for an overlay together with those of the overlay's record.", "quantifier": "every sequence of constructions and merges, every list of strings and every matching relation; every table, every opcode", "why_tests_cant": "Tests filter a few records; set laws and the tags of every decoded opcode range over all strings, merges, tables and opcodes.", "anchors": ["mavis/MatchSet.hpp:MatchSet", "mavis/Tag.hpp:Tag", "mavis/Pattern.hpp:Pattern", "mavis/InstMetaData.h:merge", "mavis/InstMetaData.h:parseOverrides", "mavis/OpcodeInfo.h:getTags"]}
{"id": "C55", "title": "Numbers and isa entries in record texts are read as written", "statement": "A stencil or alias text is the hexadecimal number written there, with or without 0x; a match text is the hexadecimal number after 0x and otherwise the decimal one; an isa entry is a width and a capital letter, or the letter. Texts of any other form are refused.", "quantifier": "every text: every numeral of any length, with any white space in front, every letter", "why_tests_cant": "Tests read the shipped tables only; the texts are unbounded, and what is accepted besides numerals shows only when all texts are considered.", "anchors": ["impl/DTable.tcc:parseInstInfo_", "mavis/Overlay.hpp:Overlay", "mavis/InstMetaData.h:parse", "mavis/InstMetaData.h:isa_ext_pattern_"]}
{"id": "C56", "title": "A table is accepted exactly when every record can be placed", "statement": "Building a decoder succeeds exactly when every record has a mnemonic or is a pseudo record, the user's UIDs are distinct and nonzero, every record is acceptable after those read before it (known form, extractor and clauses, a new name, its expansion or base already read), and the encodings can stand side by side: as long as two of them have had the same opcode-field values they look at the same bits next, and none only repeats the fixed bits of another. Otherwise it throws or fails an assertion; it is never undefined behaviour.", "quantifier": "every list of records in every order, every inclusion and exclusion list, every UID list and annotation list for which UIDs do not run out", "why_tests_cant": "The tests load the shipped tables in one order; whether a table of a user is refused depends on all pairs of its encodings and on all orders of its records.", "anchors": ["impl/DTable.tcc:configure", "impl/DTable.tcc:parseInstInfo_", "impl/DTable.tcc:build_", "impl/DTable.tcc:buildLeaf_", "mavis/IFactoryBuilder.h:build", "mavis/InstructionRegistry.hpp"]}
{"id": "C57", "title": "Printing a decoder lists its table", "statement": "Streaming a decoder to a text always succeeds, and the text has exactly one line for each encoding of the table it was built from; that line shows the mnemonic, the mask, the bits and the number of the fixed fields, the extractor the record asks for and the factory.", "quantifier": "every instruction table and filter a decoder can be built from, every UID list and annotation list", "why_tests_cant": "The test compares the printed tree of seven fixed configurations with a golden file; that no encoding is ever missing or listed twice is about every table.", "anchors": ["mavis/Mavis.h:operator<<", "impl/DTable.tcc:print", "mavis/IFactory.h:IFactoryDenseComposite::print", "mavis/IFactory.h:IFactorySpecialCaseComposite::print", "mavis/Extractor.h:getName"]}
{"id": "C58", "title": "The exception of a refused table names a true defect", "statement": "If constructing a decoder throws, the kind of the exception is right: it is about the user's UID list and that list has the defect, or it is about one record, all records before it are acceptable, and that record has the defect the exception names (unknown form, unknown field, unknown type, bad data size, bad isa entry, duplicate mnemonic, missing expansion, incompatible fields, opcode conflict, bad or baseless overlay). Every clash of encodings is reported by an exception.", "quantifier": "every list of records, UID list, annotation list and pair of filters", "why_tests_cant": "Tests feed a few broken files and check one exception each; that no other defect, or none at all, can lead to an exception of the same kind is about every table.", "anchors": ["impl/DTable.tcc:parseInstInfo_", "impl/DTable.tcc:build_", "impl/DTable.tcc:buildLeaf_", "mavis/IFactoryBuilder.h:buildOverlay", "mavis/InstructionRegistry.hpp:InstructionRegistry", "mavis/InstMetaData.h:InstMetaData", "mavis/DecoderExceptions.h"]}
{"id": "C59", "title": "Pseudo-instructions are shown by the disassembler installed for them", "statement": "The text of a pseudo-instruction is what the disassembler installed last for its UID, before the instruction was made, says of its name, meta-data, operands and annotation; if none was installed it is the name and the operands of the extractor. Installing a disassembler changes nothing else: neither other pseudo-instructions nor the decoded information. It succeeds exactly for the UIDs of pseudo-instructions; other UIDs are refused with an exception. A text given to the extractor with dasmAnnotate is part of the disassembly.", "quantifier": "every list of pseudo-instruction records and UID list, every sequence of calls that install disassemblers and make pseudo-instructions, every disassembler", "why_tests_cant": "A test installs one disassembler and prints one instruction; which one is in force after any interleaving of calls, through a stash that is filled by earlier look-ups, is about all histories.", "anchors": ["mavis/Mavis.h:setPseudoInstDisassembler", "mavis/PseudoBuilder.hpp:setDisassembler", "mavis/IFactoryPseudo.hpp:setDisassembler", "mavis/IFactoryPseudo.hpp:getInfo", "mavis/BuilderBase.hpp:findIFact", "mavis/OpcodeInfo.h:dasmString", "mavis/Disassembler.hpp:Disassembler", "mavis/ExtractorDirectInfo.h:dasmAnnotate"]}
{"id": "C60", "title": "Instructions that share a factory", "statement": "Records may name a factory and so share it. The decode of an instruction reports the meta-data (types, data size, operand types, tags) of its own record, getOpcode of its mnemonic gives its own stencil, and an overlay of one instruction does not affect another that shares its factory. Failing that, what is reported for every one of them is what the first record using the factory says, and for a compressed instruction what the first record using its expansion's factory says, with its own record merged in.", "quantifier": "every accepted instruction table whose encodings are separated, every tag filter, every opcode, every mnemonic", "why_tests_cant": "The only shipped table with shared factories gives them equal meta-data, so a test cannot see which record is used; the rule is about every table and every grouping.", "anchors": ["mavis/IFactoryBuilder.h:build", "mavis/IFactory.h:IFactory", "mavis/IFactory.h:getInfo", "mavis/Mavis.h:getOpcode", "impl/DTable.tcc:parseInstInfo_", "json/isa_rv64zicsr.json"]}
{"id": "C61", "title": "Adding an extension leaves other opcodes alone", "statement": "What an opcode decodes to depends only on the records that concern it: those with an encoding that matches it, their overlays for its bits, and their expansions. So adding an extension's records to a configuration changes no answer for an opcode that none of the added records matches or overlays, neither its mnemonic, operands, meta-data, annotation nor the exception thrown, and no UID already assigned.", "quantifier": "every pair of accepted configurations that agree on the records concerning an opcode, every list of added records, every tag filter, UID list, annotation and every opcode", "why_tests_cant": "Tests compare a few fixed combinations of files; the property is about all tables, all extensions of them and all opcodes.", "anchors": ["mavis/Mavis.h:Mavis", "impl/DTable.tcc:configure", "impl/DTable.tcc:parseInstInfo_", "mavis/DTable.h:DTable", "mavis/IFactoryBuilder.h:build"]}
{"id": "C62", "title": "Instruction classes and access sizes of the shipped tables are those of the opcode map", "statement": "With the shipped instruction files, isInstType answers by the opcode: an instruction flagged as load, store, atomic, branch, cond, jal, jalr, float, vector, mul, div, csr, fence, system and so on has an opcode that the RISC-V manuals put in that class, and its data size is the number of bits the access moves (8, 16, 32, 64 or 128; 0 without an access). With a whole table the converse holds as well: no opcode of a class decodes to an instruction that is not flagged.", "quantifier": "every part of the shipped RV64 and RV32 tables (whole tables for the converse), every tag filter, UID list and annotation, every opcode, 28 classes and 5 sizes", "why_tests_cant": "There are about 900 records and 2^32 opcodes; a test looks at one opcode and one flag at a time, and which record answers depends on what else is configured.", "anchors": ["mavis/OpcodeInfo.h:isInstType", "mavis/InstMetaData.h:InstructionTypes", "mavis/DecodedInstInfo.h:data_size", "json/isa_rv64i.json", "json/isa_rv64a.json", "json/isa_rv64v.json", "json/isa_rv32c.json"]}
{"id": "C63", "title": "A configuration is accepted exactly when everything in it is in order, pseudo-instructions included", "statement": "Constructing a Mavis object or making a context succeeds exactly when the user's UIDs are usable, no annotation file describes a mnemonic twice, the instruction records can be placed, and the pseudo-instructions have distinct names and refer to known types, sizes, fields and special fields only; otherwise an exception names a defect the configuration has. The annotation overrides and the tag inclusions and exclusions of the configuration apply to pseudo-instructions as they do to instructions.", "quantifier": "every configuration (instruction and pseudo records, annotation files, UIDs, overrides, tag filters), every value of the UID counter that leaves room, every history of makePseudoInst calls", "why_tests_cant": "The configurations are unbounded, and the defects of one part hide behind those of another; a test constructs a few configurations.", "anchors": ["mavis/ContextRegistry.hpp:ContextRegistry::makeContext", "mavis/PseudoBuilder.hpp:PseudoBuilder::configure", "mavis/FormGeneric.hpp:FormGeneric", "mavis/AnnotationRegistry.hpp:AnnotationRegistry", "mavis/Mavis.h:Mavis::makePseudoInst"]}
{"id": "C64", "title": "Operand types of the shipped tables tell the precision and the width that the opcode asks for", "statement": "With the shipped instruction tables, or any part of them, every register operand of a decoded instruction has a type, and the type is the one the opcode map asks for: single, double or quad precision by the fmt field, the rs2 field of a conversion or the width of a load or store (half precision counts as single), word for the 32-bit side of conversions and the result of comparisons, long otherwise.", "quantifier": "every part of the three shipped selections, every tag filter, UID and annotation input, every opcode, every operand", "why_tests_cant": "The opcodes and the parts of the tables are too many to try; the types are written by hand in each of some two thousand records.", "anchors": ["json/isa_rv64d.json", "json/isa_rv64f.json", "json/isa_rv64q.json", "json/isa_rv64zfh.json", "json/isa_rv64vf.json", "mavis/InstMetaData.h:InstMetaData::getOperandType", "mavis/DecodedInstInfo.h:DecodedInstructionInfo::getSourceOpInfo"]}
{"id": "C65", "title": "The register masks by type hold exactly the operands of that type", "statement": "For every decoded instruction and every operand type, the mask of source (destination) registers of that type is the set of the register numbers of the source (destination) operands that the operand list reports with that type. It is so for every record of a format that looks at the type of each register and whose meta-data gives no operand two types, and for every instruction of the shipped tables except addiw and c.addiw and the RV32 stores of the pair that starts at x0.", "quantifier": "every format, meta-data, special field set and opcode; every part of the shipped selections, every tag filter, UID and annotation input, every opcode", "why_tests_cant": "The masks and the lists are computed by separate code in each of a hundred formats, from two separate accounts of the types; opcodes and records are too many to try.", "anchors": ["mavis/DecodedInstInfo.h:DecodedInstructionInfo", "mavis/DecodedInstInfo.h:getSourceOpInfo", "mavis/InstMetaData.h:InstMetaData::isOperandType", "mavis/InstMetaData.h:InstMetaData::getOperandType", "impl/forms/ExtractorDerived.h", "json/isa_rv64i.json"]}
{"id": "C66", "title": "Special fields of the shipped tables are those of the opcode map", "statement": "With the shipped instruction tables, or any part of them, asking a decoded instruction for a special field (acquire and release bits, rounding mode, CSR number, fence sets and mode, vector mask bit, segment count, application vector length) returns exactly the bits that the RISC-V manuals call so if the instruction has that field, and throws if it does not.", "quantifier": "every part of the three shipped selections, every tag filter, UID and annotation input, every opcode, every special field", "why_tests_cant": "Opcodes and parts of the tables are too many to try; whether a field is present depends on the format, the form and the fixed fields of each of some two thousand records.", "anchors": ["mavis/OpcodeInfo.h:OpcodeInfo::getSpecialField", "mavis/Extractor.h:ExtractorIF::SpecialField", "impl/forms/ExtractorForms.h", "json/"]}
{"id": "C67", "title": "The message of an exception tells what is wrong", "statement": "When an opcode is refused the message shows the opcode, and for an illegal opcode the instruction that is selected for it. When a special field or operand is refused the message names it, with the instruction and the opcode for a special field. When a table or the list of UIDs is refused, the message names the instruction at fault, which belongs to the first record that cannot be added, and the name or number in it that is wrong. Every such exception can be caught as the library's base exception and as std::exception.", "quantifier": "every decoder and opcode, every decoded instruction and special field, every operand, every UID list, annotation list, filter and table", "why_tests_cant": "The message is put together where the error is found, deep in the tree and after any number of records that were added; which instruction it names has to be right for every table and opcode.", "anchors": ["mavis/DecoderExceptions.h:BaseException", "mavis/DecoderExceptions.h:BuildErrorOverlayBadMatchSpec", "impl/DTable.tcc:DTable::parseInstInfo_", "mavis/OpcodeInfo.h:OpcodeInfo::getSpecialField", "mavis/InstMetaData.h:InstMetaData::getFieldIDName"]}
{"id": "C68", "title": "A decoded instruction says of itself what its record says", "statement": "Whatever is decoded with a well-formed table: isInstType(t) is true exactly for the types listed by the record that is selected for the opcode, by the record it expands to, or by the overlay that applies; the data size is that of the overlay if it has one, else that of the record (or of what it expands to), else 0; isISA and isISAWidth are true exactly for the entries of the record's isa clause; the tags are those of the record and the overlay; and each operand has the type of the last operand clause that covers it, or none.", "quantifier": "every UID list, annotation list, filter and well-formed table, every opcode that is decoded", "why_tests_cant": "The answer is merged from up to three records that may be anywhere in the table, through clones and overlays; tests look at some shipped instructions only.", "anchors": ["mavis/InstMetaData.h:InstMetaData::InstMetaData", "mavis/InstMetaData.h:InstMetaData::merge", "mavis/IFactory.h:IFactory", "mavis/OpcodeInfo.h:OpcodeInfo::isInstType", "mavis/DecodedInstInfo.h:DecodedInstructionInfo"]}
{"id": "C69", "title": "A compressed instruction is decoded like the instruction it abbreviates", "statement": "With the shipped tables, a 16-bit opcode that is decoded and the 32-bit opcode the manual says it abbreviates give the same destination and source registers, in the same order, with the same register files and store-data marks, and the same signed offset. Every 16-bit instruction of the tables has such an expansion.", "quantifier": "every UID list and annotation list, each shipped table set (RV64, RV32 with Zcf, RV32 with Zclsd), every 16-bit opcode that is decoded", "why_tests_cant": "The two opcodes go through different records, formats and extractors, so nothing in the code ties them together; the tests compare some instructions with recorded output, not with their expansions, and none for all operand values.", "anchors": ["mavis/ExtractorDirectImplementations.hpp:Extractor", "mavis/Mavis.h:Mavis::makeInst", "json/isa_rv64c.json", "json/isa_rv32c.json", "json/isa_rv64zcb.json"]}
{"id": "C70", "title": "Bits beyond the end of the instruction do not matter", "statement": "Decoding an opcode whose upper bits are left over from fetching gives the same answer as decoding the bits of the instruction alone (the low 16 if it ends in 00, 01 or 10, else the low 32): the same exception, or the same mnemonic, UID, operands, register masks, immediate, offset, meta-data, annotation, special fields and text. Only the opcode the report quotes differs. This holds with the shipped tables and their parts, and with every well-formed table whose 16-bit instructions use formats, masks and extractors for 16 bits.", "quantifier": "every opcode of any size, every part of a shipped table, all filters, UID lists and annotation lists; every well-formed table that keeps to the length of its instructions", "why_tests_cant": "The tests pass opcodes with nothing above the instruction. No check truncates the opcode, so the claim rests on every field of every format, every extractor method of every class and every overlay mask.", "anchors": ["mavis/Field.h:Field::extract", "mavis/DTable.h:DTable::getInfo", "mavis/IFactory.h:IFactory::getInfo", "impl/forms/ExtractorForms.h", "impl/forms/ExtractorDerived.h", "json/isa_rv64c.json"]}
{"id": "C71", "title": "An instruction that two tables define alike is reported alike; RV32 and RV64 agree on names", "statement": "If two decoders, built from different tables, UID lists, annotations and filters, decode an opcode as the same instruction, and both tables define that instruction, the instruction it overlays and the one it expands to alike, then both report the same operands, masks, immediate, offset, meta-data, special fields and text; only the UID and the annotation may differ. With parts of the shipped tables this covers every instruction that RV32 and RV64 share, except the shifts, of which only the text differs, and the loads and stores of register pairs. With all files of either width configured, an opcode that both decode has the same mnemonic in both, but for sixteen listed pairs of names, each of which does occur; and no opcode is known to a part of the RV32 tables and unknown to the RV64 tables.", "quantifier": "every opcode, any two well-formed tables, all parts of any two shipped tables, all filters, UID lists and annotation lists", "why_tests_cant": "The tests of RV32 and RV64 are separate and compare some opcodes with stored texts; whether what else is in a table can change the report of a shared instruction is a statement about all pairs of tables and all opcodes.", "anchors": ["mavis/DTable.h:DTable::getInfo", "mavis/IFactory.h:IFactory::getInfo", "impl/forms/ExtractorForms.h:Extractor<Form_ISHW>", "impl/forms/ExtractorForms.h:Extractor<Form_ISH>", "json/isa_rv32i.json", "json/isa_rv64i.json", "json/isa_rv32zilsd.json"]}
{"id": "C72", "title": "Instructions called nop or cmov", "statement": "Two instructions, nop and cmov, exist before any record is read. An instruction of the table that has one of these names is decoded like any other: it reports its name, the UID looked up by that name, its own meta-data and opcode, and its annotation. (What holds instead for the meta-data and the opcode: an instruction that asks for the factory nop or cmov, by name or by default, gets the built-in meta-data whatever its record says, and getOpcode of its name is 0.)", "quantifier": "every accepted table with separated encodings, every opcode, all UID lists, annotation lists and filters", "why_tests_cant": "No shipped table has an instruction record called cmov, and nop is an overlay there, so no test decodes one; that the built-in factory wins over any record is a statement about all tables.", "anchors": ["mavis/IFactoryBuilder.h:IFactoryBuilder::IFactoryBuilder", "mavis/IFactoryBuilder.h:IFactoryBuilder::build", "mavis/IFactoryCustom.h:IFactory_CMOV", "mavis/IFactoryCustom.h:IFactory_NOP", "mavis/Mavis.h:Mavis::getOpcode"]}
{"id": "C73", "title": "hasImmediate and getImmediateType say what the manual says", "statement": "An instruction decoded with any selection of the shipped records is reported to have an immediate exactly if the manual gives it one, as signed if its field is sign-extended and as unsigned if not. With any table, an immediate reported as unsigned is its own signed offset.", "quantifier": "every opcode, every selection of records of the shipped files; every table", "why_tests_cant": "About 800 instructions in every selection of files; the tests print the decoded object with its immediate and compare it with earlier output of the library.", "anchors": ["mavis/OpcodeInfo.h:hasImmediate", "mavis/OpcodeInfo.h:getImmediateType", "mavis/Form.h:ImmediateType", "impl/forms/ExtractorForms.h", "impl/forms/ExtractorDerived.h", "json/isa_rv*.json"]}
{"id": "C74", "title": "Instructions are numbered in order", "statement": "When a program makes contexts, between any other calls, the UIDs the library chooses are consecutive and predictable: in each context first the two built-in instructions nop and cmov, then every instruction and overlay name in the order of the records that are not filtered out (the first mention counts, names given a UID by the user and compressed instructions get no number of their own), then the pseudo-instructions; the first number is the smallest one above those used by earlier contexts and those in the context's UID list. A name that a later trace record brings up for the first time gets the next number. A context made after them goes on from there.", "quantifier": "every sequence of calls without trace records in which a context construction fails only because its name is taken, followed by any trace records and then another context, with any tables, filters, annotation files and UID lists", "why_tests_cant": "ranges over all tables and all sequences of contexts; a test fixes both", "anchors": ["mavis/InstructionRegistry.hpp:UIDManager", "mavis/InstructionRegistry.hpp:InstructionRegistry::registerInst", "mavis/IFactoryBuilder.h:IFactoryBuilder::build", "mavis/PseudoBuilder.hpp:PseudoBuilder::build_", "mavis/ContextRegistry.hpp:ContextRegistry::makeContext"]}
{"id": "C75", "title": "flushCaches makes the decoder forget trace records", "statement": "After flushCaches, getInfo and makeInst answer for every opcode as a decoder that was just made, whatever was called before, in particular after trace records that gave an opcode the name of another instruction or of none; and they go on doing so as long as later trace records agree with the decoder. Trace records after the flush are answered from the record given, not from one seen before.", "quantifier": "every accepted table with separated encodings, every history of calls before and after the flush, every opcode", "why_tests_cant": "what a flush has to undo depends on the whole history, and the stashes to be emptied on every path of the decode tree; tests flush after a handful of calls", "anchors": ["mavis/DTable.h:flushCaches", "mavis/IFactory.h:flushCaches", "mavis/DTable.h:makeInstFromTrace", "mavis/IFactoryBuilder.h:build", "mavis/IFactory.h:findAnnotation_"]}
