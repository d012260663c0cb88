{"id": "C01", "title": "Begin/Complete/Abort protocol is enforced", "statement": "Begin succeeds (ApiStatus kSuccess) exactly when no translation is in progress on the object, and a refused Begin changes nothing: not the pending commands, not memory, not the allocator. Complete succeeds at the API level only when a translation is in progress, and a refused Complete on an idle object changes nothing. After a successful Begin the object is busy until the next Complete or AbortPipeline.", "quantifier": "every finite sequence of Begin/Complete/AbortPipeline calls with any arguments, any memory contents, any allocator behaviour", "why_tests_cant": "the state machine must hold for all call sequences; tests fix a handful of two-call sequences", "anchors": ["lib/translator/translation.cc: Translation::Begin, Translation::Complete, Translation::AbortPipeline", "lib/translator/translation.h: Translation"]}
{"id": "C02", "title": "Object is always reusable after Complete or Abort", "statement": "Whatever happened before, after any Complete call that is not undefined behaviour, and after any AbortPipeline, the object is idle: it exposes zero NVMe commands, holds no pages, and the next Begin with a non-empty CDB is accepted by the API.", "quantifier": "every reachable object state, every Complete argument, every NVMe outcome", "why_tests_cant": "must hold along every exit path of Complete for every history", "anchors": ["lib/translator/translation.cc: Translation::Complete, AbortPipeline, FlushMemory"]}
{"id": "C03", "title": "No page leak and no double free over any history", "statement": "Along any sequence of Begin/Complete/Abort calls on one object, with an allocator that returns 0 for a zero-page request, the multiset of pages obtained from the alloc callback and not yet given back to the dealloc callback is exactly the set the object currently holds, each page run is freed at most once, with the same page count it was allocated with, and when the object is idle nothing is outstanding.", "quantifier": "every call history, CDB, allocator answer sequence (including failures at any point) and device behaviour", "why_tests_cant": "allocation failures can strike at any call of any history; a test can inject one", "anchors": ["lib/translator/translation.cc: FlushMemory", "lib/translator/common.cc: Allocation::SetPages, AllocPages, DeallocPages"]}
{"id": "C04", "title": "Command amplification bound", "statement": "The number of NVMe commands exposed by GetNvmeWrappers never exceeds 3 (kMaxCommandRatio), and is 0 whenever the object is idle or the last Begin could not be translated.", "quantifier": "every history", "why_tests_cant": "universally quantified over CDBs and histories (fallthrough paths increment counters repeatedly)", "anchors": ["lib/translator/translation.cc: GetNvmeWrappers, Begin", "lib/translator/common.h: kMaxCommandRatio", "lib/translator/mode_sense.cc: ModeSenseToNvme"]}
{"id": "C05", "title": "Untranslatable command yields CHECK CONDITION / ILLEGAL REQUEST / INVALID FIELD IN CDB", "statement": "If Begin could not translate the CDB then no NVMe command is exposed, no page is retained, and Complete (with no completions) returns API success, status CHECK CONDITION, and if the sense buffer has at least 8 bytes it receives response code 72h, sense key 5h, ASC 24h, ASCQ 00h, additional length 0; a shorter sense buffer is untouched; the data buffer is never written.", "quantifier": "every CDB that is empty, has an unknown opcode, is truncated or has an unsupported field; every buffer", "why_tests_cant": "256 opcodes x every length x every field value", "anchors": ["lib/translator/translation.cc: Complete", "lib/translator/common.cc: FillSenseBuffer"]}
{"id": "C06", "title": "Wrong number of completions is refused and cleans up", "statement": "If Complete is called on a busy object with a number of completions different from the number of exposed commands, it returns ApiStatus kFailure, writes to no buffer, frees every held page and leaves the object idle.", "quantifier": "every busy state, every completion list of a different length", "why_tests_cant": "quantified over all states and lengths", "anchors": ["lib/translator/translation.cc: Complete"]}
{"id": "C07", "title": "The first failing NVMe completion determines the SCSI status", "statement": "If some completion carries an NVMe error, Complete returns API success with the SCSI status and sense of the first such completion in order, writes only the sense buffer (the data buffer is untouched) and frees everything.", "quantifier": "every opcode, every list of completions", "why_tests_cant": "quantified over all completion values and orders", "anchors": ["lib/translator/translation.cc: Complete", "lib/translator/status.cc: StatusToScsi"]}
{"id": "C08", "title": "NVMe-to-SCSI status table; GOOD iff success", "statement": "For each of the 8x256 (status code type, status code) pairs the SCSI status, sense key, ASC and ASCQ are those of the NVMe-SCSI translation table implemented; GOOD is returned for and only for generic status 00h; no NVMe error is ever reported as GOOD; reserved pairs map to CHECK CONDITION / NO SENSE.", "quantifier": "every sct and sc byte value", "why_tests_cant": "2048 pairs, tests cover a few dozen", "anchors": ["lib/translator/status.cc: StatusToScsi"]}
{"id": "C09", "title": "Sense data is well-formed descriptor sense", "statement": "Whenever sense is written, exactly 8 bytes are written: response code 72h, the sense key in the low nibble of byte 1, ASC, ASCQ, additional length 0, and every reserved bit is zero.", "quantifier": "every status and every sense buffer of at least 8 bytes, every prior stack content", "why_tests_cant": "depends on uninitialised memory, which a test run cannot quantify over", "anchors": ["lib/translator/common.cc: FillSenseBuffer", "lib/scsi.h: DescriptorFormatSenseData"]}
{"id": "C10", "title": "Frame: the library writes only where it was told to", "statement": "Begin writes no caller memory except pages it has just obtained from the allocator; Complete writes only within buffer_in and sense_buffer. Neither writes beyond the size given for a span.", "quantifier": "every CDB, buffer size, memory layout, completion", "why_tests_cant": "memory safety over all buffer sizes", "anchors": ["lib/translator/translation.cc", "lib/translator/common.h: WriteValue, SafePointerCastWrite"]}
{"id": "C11", "title": "Begin never has undefined behaviour", "statement": "If the CDB span and the data buffer span are readable, Begin never reads outside them, never dereferences an unmapped address and always returns.", "quantifier": "every CDB of any length, every buffer, every allocator honouring its contract, every prior history", "why_tests_cant": "all lengths and contents", "anchors": ["lib/translator/translation.cc: Begin"]}
{"id": "C12", "title": "Complete never has undefined behaviour", "statement": "If the spans passed are valid and the identify pages are mapped, Complete never performs an undefined operation (out-of-range span access, over-wide shift, flowing off the end of a value-returning function).", "quantifier": "every CDB accepted by Begin, every completion and every identify page content", "why_tests_cant": "the device-supplied bytes and CDB range over everything", "anchors": ["lib/translator/translation.cc: Complete", "lib/translator/mode_sense.cc: WritePageData, WriteBlockDescriptor"]}
{"id": "C13", "title": "READ(6) translation is exact", "statement": "A READ(6) CDB of at least 6 bytes with a buffer of at least n*4096 bytes, n = transfer length (256 when the field is 0), becomes exactly one I/O command: NVMe Read, NSID = LUN+1, starting LBA = the 21-bit big-endian LBA, NLB = n-1, PRP1 = the caller's buffer, every other bit of the 64-byte entry 0, buffer_len = n*4096.", "quantifier": "every CDB, LUN, buffer", "why_tests_cant": "2^29 field combinations", "anchors": ["lib/translator/read.cc: Read6ToNvme, LegacyRead"]}
{"id": "C14", "title": "READ(10/12/16) translation is exact", "statement": "An accepted READ(10), READ(12) or READ(16) becomes exactly one I/O NVMe Read with NSID = LUN+1, SLBA = the big-endian LBA field (32/32/64 bits, upper dword 0 for the first two), NLB = transfer length - 1, FUA copied to bit 30, PRINFO derived from RDPROTECT by the NVMe-SCSI table, PRP1 = the caller's buffer, all other bits 0, buffer_len = transfer length * 4096.", "quantifier": "every CDB, LUN, buffer", "why_tests_cant": "all 64-bit LBAs and lengths", "anchors": ["lib/translator/read.cc: Read10ToNvme, Read12ToNvme, Read16ToNvme, Read, BuildPrinfo, BuildCdw12"]}
{"id": "C15", "title": "READ acceptance is decided exactly by the documented conditions", "statement": "READ(10/12/16) is accepted iff the CDB is long enough, the transfer length is between 1 and 65535, RDPROTECT is not 6 or 7 and the buffer has at least length*4096 bytes; READ(6) iff the CDB is long enough and the buffer is large enough.", "quantifier": "every CDB and buffer", "why_tests_cant": "iff over all inputs", "anchors": ["lib/translator/read.cc"]}
{"id": "C16", "title": "READ never lets the device overrun the caller's buffer", "statement": "For every accepted READ, (NLB+1)*4096 = buffer_len = the reported alloc_len <= size of the caller's buffer, with no 32-bit wrap-around.", "quantifier": "every accepted READ CDB and buffer", "why_tests_cant": "arithmetic overflow corner cases", "anchors": ["lib/translator/read.cc: LegacyRead"]}
{"id": "C17", "title": "WRITE(6/10/12/16) translation is exact", "statement": "An accepted WRITE of at most 65535 blocks becomes exactly one I/O NVMe Write with NSID = LUN+1, SLBA = the CDB LBA, NLB = transfer length - 1 (256 blocks when WRITE(6) length is 0), FUA copied, PRINFO derived from WRPROTECT, PRP1 = the caller's buffer, buffer_len = its size, all other bits 0; a WRITE is accepted iff its CDB is complete, its length nonzero and its WRPROTECT valid. (Larger lengths: C18.)", "quantifier": "every WRITE CDB whose transfer length is below 65536, every LUN and buffer", "why_tests_cant": "all LBAs and lengths", "anchors": ["lib/translator/write.cc"]}
{"id": "C18", "title": "WRITE(12/16) never writes a different number of blocks than asked", "statement": "A WRITE(12) or WRITE(16) with a transfer length above 65535 is rejected (as READ(12/16) does) rather than translated into a command covering a different number of blocks.", "quantifier": "every 32-bit transfer length", "why_tests_cant": "needs all 2^32 lengths", "anchors": ["lib/translator/write.cc: Write"]}
{"id": "C19", "title": "WRITE never makes the device read beyond the caller's buffer", "statement": "For every accepted WRITE, (NLB+1)*4096 <= size of the data-out buffer.", "quantifier": "every WRITE CDB and buffer", "why_tests_cant": "all length/buffer combinations", "anchors": ["lib/translator/write.cc: LegacyWrite, Write"]}
{"id": "C20", "title": "VERIFY(10) translation", "statement": "An accepted VERIFY(10) becomes exactly one I/O NVMe Compare with NSID = LUN+1, PRP1 = the caller's buffer, SLBA = CDB LBA, NLB = verification length - 1 and PRINFO from BYTCHK/VRPROTECT; it is accepted iff the CDB has 10 bytes, the length is nonzero and NACA is 0.", "quantifier": "every VERIFY(10) CDB and LUN", "why_tests_cant": "all field values", "anchors": ["lib/translator/verify.cc: VerifyToNvme"]}
{"id": "C21", "title": "SYNCHRONIZE CACHE(10) becomes a namespace flush", "statement": "Any SYNCHRONIZE CACHE(10) is accepted and becomes exactly one I/O Flush of NSID = LUN+1 with every other bit 0.", "quantifier": "every CDB starting with 35h, every LUN", "why_tests_cant": "all CDBs", "anchors": ["lib/translator/synchronize_cache.cc"]}
{"id": "C22", "title": "TEST UNIT READY succeeds without touching the device", "statement": "TEST UNIT READY exposes no NVMe command, allocates nothing, and Complete returns GOOD and writes nothing.", "quantifier": "every CDB starting with 00h, every state", "why_tests_cant": "all trailing bytes and histories", "anchors": ["lib/translator/translation.cc"]}
{"id": "C23", "title": "LUN to namespace mapping is faithful", "statement": "Every namespace-directed command carries NSID = LUN+1, so different LUNs address different namespaces and no LUN addresses NSID 0 or the broadcast NSID.", "quantifier": "every 64-bit LUN", "why_tests_cant": "2^64 LUNs", "anchors": ["lib/translator/translation.cc: Begin (nsid)"]}
{"id": "C24", "title": "INQUIRY issues exactly Identify Namespace and Identify Controller", "statement": "An INQUIRY CDB of at least 6 bytes, when the two page allocations succeed, exposes exactly two admin commands: Identify CNS 0 for NSID LUN+1 and Identify CNS 1, each pointing at its own fresh page, and alloc_len is the CDB's big-endian allocation length; if either allocation fails the translation fails and nothing is leaked.", "quantifier": "every CDB, LUN and allocator answer", "why_tests_cant": "all allocator failure points", "anchors": ["lib/translator/inquiry.cc: InquiryToNvme"]}
{"id": "C25", "title": "Standard INQUIRY data", "statement": "With EVPD=0 and at least 36 bytes of buffer, the 36 bytes written are the documented standard INQUIRY data: version 06h, format 2, additional length 1Fh, PROTECT = 0 iff the namespace's end-to-end protection settings (DPS bits 3:0) are zero, CMDQUE=1, vendor 'NVMe    ', product = first 16 model-number bytes, revision = the last four graphic characters of the firmware revision, right aligned. A smaller buffer is untouched.", "quantifier": "every identify namespace and controller page, every buffer size", "why_tests_cant": "4096-byte device pages", "anchors": ["lib/translator/inquiry.cc: TranslateStandardInquiry"]}
{"id": "C26", "title": "Supported VPD list is truthful", "statement": "The Supported VPD Pages page lists exactly the page codes for which INQUIRY EVPD=1 produces a page, in ascending order, with a correct length byte; every other page code is rejected without writing.", "quantifier": "every page code, identify data and buffer size", "why_tests_cant": "all 256 page codes x contents", "anchors": ["lib/translator/inquiry.cc: TranslateSupportedVpdPages, InquiryToScsi"]}
{"id": "C27", "title": "VPD pages echo the requested page code", "statement": "Byte 1 of a returned VPD page equals the page code requested.", "quantifier": "every supported page code, identify data and buffer", "why_tests_cant": "identify data ranges over everything", "anchors": ["lib/translator/inquiry.cc"]}
{"id": "C28", "title": "VPD page length field is the big-endian number of bytes that follow", "statement": "Bytes 2-3 of a returned VPD page, read big-endian, are the page length defined for that page.", "quantifier": "every supported page code, identify data and buffer", "why_tests_cant": "identify data ranges over everything", "anchors": ["lib/translator/inquiry.cc", "lib/scsi.h: PageLength"]}
{"id": "C29", "title": "Unit Serial Number identifies the namespace", "statement": "The Unit Serial Number page is the hexadecimal rendering of NGUID (40 bytes), else of EUI-64 (20 bytes), else serial number + NSID, it never contains uninitialised bytes, and two namespaces with different NGUIDs never get the same serial number.", "quantifier": "every NGUID, EUI-64, serial number and NSID", "why_tests_cant": "128-bit identifiers and uninitialised stack", "anchors": ["lib/translator/inquiry.cc: TranslateUnitSerialNumberVpd"]}
{"id": "C30", "title": "Device Identification page", "statement": "The Device Identification page carries one binary EUI-64 designator: NGUID if nonzero (16 bytes), else EUI-64 (8 bytes), else the vendor-based ASCII fallback, with the bytes of the identifier unaltered and a length field covering the descriptor.", "quantifier": "every identify page", "why_tests_cant": "all identifiers", "anchors": ["lib/translator/inquiry.cc: TranslateDeviceIdentificationVpd, BuildIdentificationDescriptor"]}
{"id": "C31", "title": "Extended INQUIRY reports the namespace's protection types", "statement": "SPT, GRD_CHK, APP_CHK, REF_CHK and V_SUP of the Extended INQUIRY page follow from DPC/DPS/VWC as the SPC supported-protection-type table prescribes.", "quantifier": "every DPC, DPS and VWC value", "why_tests_cant": "all combinations", "anchors": ["lib/translator/inquiry.cc: TranslateExtendedInquiryDataVpd, GetSptValueFromDPC"]}
{"id": "C32", "title": "Block Limits page", "statement": "The Block Limits page reports: maximum transfer length 2^MDTS (capped at 2^16, 0 if unlimited), a compare-and-write limit only if fused compare-and-write is supported (the transfer length, at most 255), maximum UNMAP LBA count 1 and 256 descriptors iff Dataset Management is supported (0 otherwise), and everything else 0; a buffer under 64 bytes is untouched.", "quantifier": "every identify controller page", "why_tests_cant": "all MDTS/ONCS/FUSES values", "anchors": ["lib/translator/inquiry.cc: TranslateBlockLimitsVpd"]}
{"id": "C33", "title": "Logical Block Provisioning page", "statement": "LBPU, LBPRZ, ANC_SUP and provisioning type follow from ONCS.DSM, NSFEAT.THIN and the deallocate behaviour as documented.", "quantifier": "every identify data", "why_tests_cant": "all combinations", "anchors": ["lib/translator/inquiry.cc: TranslateLogicalBlockProvisioningVpd"]}
{"id": "C34", "title": "MODE SENSE(6) issues exactly the commands it needs", "statement": "A MODE SENSE(6) exposes Identify Namespace iff block descriptors are enabled (DBD=0) followed by Get Features(Volatile Write Cache, SEL from PC: current -> 0, changeable -> 2, default -> 1) iff the page needs the cache state, and nothing else; alloc_len equals the CDB's allocation length; it is rejected exactly for pages other than 08h, 0Ah, 1Ah, 3Fh and for page control 3 (saved) on pages 08h and 3Fh.", "quantifier": "every CDB, LUN and allocator answer", "why_tests_cant": "all page codes/pc/dbd", "anchors": ["lib/translator/mode_sense.cc: ModeSense6ToNvme, ModeSenseToNvme, GetModeDataLength"]}
{"id": "C35", "title": "MODE SENSE(6) returns the mode data it promised", "statement": "After the device answers, the mode parameter data returned has MODE DATA LENGTH, block descriptor (iff DBD=0) and the requested pages, and WCE equals the write-cache state the device reported through Get Features.", "quantifier": "every accepted CDB, identify page, Get Features result and sufficiently large buffer", "why_tests_cant": "device answers range over everything", "anchors": ["lib/translator/mode_sense.cc: ModeSense6ToScsi, WritePageData", "lib/translator/translation.cc: Complete (cpl_data[0])"]}
{"id": "C36", "title": "MODE SENSE(10) is supported", "statement": "A standard 10-byte MODE SENSE(10) CDB for a supported page is translated to Identify/Get Features and answered.", "quantifier": "every 10-byte CDB, LUN and allocator", "why_tests_cant": "all CDBs", "anchors": ["lib/translator/translation.cc: case kModeSense10", "lib/translator/mode_sense.cc: ModeSense10ToNvme"]}
{"id": "C37", "title": "UNMAP is translated to Dataset Management / Deallocate", "statement": "A well-formed UNMAP with 1..256 block descriptors becomes one I/O Dataset Management command with AD=1, NR = descriptors-1, and a range list holding each descriptor's LBA and block count; malformed parameter lists are rejected.", "quantifier": "every CDB, parameter list, LUN and allocator answer", "why_tests_cant": "all parameter lists", "anchors": ["lib/translator/unmap.cc: UnmapToNvme", "lib/translator/translation.cc: case kUnmap"]}
{"id": "C38", "title": "Exposed commands are always those of the current CDB", "statement": "Every command exposed after a successful Begin was built by that Begin from the current CDB, LUN and buffer: nothing of an earlier translation or of uninitialised memory can be submitted.", "quantifier": "every history", "why_tests_cant": "depends on the history and on uninitialised members", "anchors": ["lib/translator/translation.cc", "lib/translator/translation.h: nvme_wrappers_"]}
{"id": "C39", "title": "REPORT LUNS lists exactly the active namespaces", "statement": "An accepted REPORT LUNS issues one admin Identify CNS 2 and, for an active-namespace list terminated by 0 or full, returns LUN = NSID-1 for each entry in order as 8-byte big-endian numbers, as many as fit the buffer, with the LUN LIST LENGTH equal to 8 times the number of namespaces. Sending INQUIRY etc. to a reported LUN addresses the namespace it came from.", "quantifier": "every namespace list, buffer size and alignment", "why_tests_cant": "up to 1024 entries", "anchors": ["lib/translator/report_luns.cc"]}
{"id": "C40", "title": "READ CAPACITY(10) reports last LBA and block size", "statement": "READ CAPACITY(10) returns min(NSZE-1, FFFFFFFFh) and 2^LBADS big-endian, and fails when LBADS is outside 9..31 or NACA is set.", "quantifier": "every identify namespace page", "why_tests_cant": "all NSZE/LBADS values", "anchors": ["lib/translator/read_capacity_10.cc"]}
{"id": "C41", "title": "REQUEST SENSE returns NO SENSE in the requested format", "statement": "REQUEST SENSE issues no NVMe command; with DESC=1 it returns 8 bytes of descriptor-format sense, otherwise 18 bytes of fixed-format sense, both NO SENSE; a too-small buffer is untouched; NACA is rejected.", "quantifier": "every CDB and buffer", "why_tests_cant": "all CDBs", "anchors": ["lib/translator/request_sense.cc"]}
{"id": "C42", "title": "REPORT SUPPORTED OPERATION CODES", "statement": "MAINTENANCE IN / REPORT SUPPORTED OPERATION CODES asking for WRITE SAME(16) with reporting option 1 is answered 'not supported' without any NVMe command, and any other request is rejected.", "quantifier": "every CDB", "why_tests_cant": "all CDBs", "anchors": ["lib/translator/maintenance_in.cc", "lib/translator/translation.cc: case kMaintenanceIn"]}
{"id": "C43", "title": "Truncated responses are prefixes", "statement": "Mode sense data returned into a smaller buffer is a prefix of what would be returned into a larger one, the bytes beyond what was written are unchanged.", "quantifier": "every pair of buffer sizes, every CDB and device data", "why_tests_cant": "all pairs of sizes", "anchors": ["lib/translator/mode_sense.cc: ModeSenseToScsi"]}
{"id": "C44", "title": "A response that could not be produced is not reported as GOOD", "statement": "If the response data cannot be produced (unsupported VPD page, buffer too small, bad device data) Complete does not return GOOD.", "quantifier": "every CDB and device data", "why_tests_cant": "all failing paths", "anchors": ["lib/translator/translation.cc: Complete (TODO at the end)"]}
{"id": "C45", "title": "Byte-order helpers are correct on both host endiannesses", "statement": "htonll/ntohll, htols, htoll and htolll convert between host order and big/little-endian byte sequences on little- and big-endian hosts, and are involutions.", "quantifier": "every 16/32/64-bit value, both endiannesses", "why_tests_cant": "tests run on one host", "anchors": ["lib/translator/common.cc: htonll, htols, htoll, htolll"]}
{"id": "C46", "title": "Span and value access helpers stay in bounds", "statement": "subspan(pos,len) never describes memory outside the original span and selects exactly the requested range clipped to it; ReadValue fails iff the span is too short and otherwise yields the first sizeof(T) bytes; WriteValue fails iff it would not fit and otherwise changes exactly the first n bytes.", "quantifier": "every span, position, length, value", "why_tests_cant": "all sizes", "anchors": ["lib/translator/common.h: Span, ReadValue, WriteValue"]}
{"id": "C47", "title": "Engine submits exactly the translated commands, in order, to the right queue", "statement": "The end-to-end engine submits to the driver precisely the commands Begin exposed, in order, admin ones to the admin queue and others to the I/O queue, and nothing when translation failed.", "quantifier": "every request and device behaviour", "why_tests_cant": "all requests", "anchors": ["third_party/e2e/engine.cc: ScsiToNvme"]}
{"id": "C48", "title": "Engine releases every page on every path", "statement": "After the engine returns, no page allocated while serving the request is outstanding, whatever the CDB, data length and device outcome.", "quantifier": "every request, allocator and device", "why_tests_cant": "all exit paths", "anchors": ["third_party/e2e/engine.cc: ScsiToNvme"]}
{"id": "C49", "title": "Engine never lets a response exceed the data buffer", "statement": "When the engine completes a request the reported/written response fits in the data_len bytes the caller supplied; requests whose response would not fit are refused before any NVMe command is submitted.", "quantifier": "every request", "why_tests_cant": "all lengths", "anchors": ["third_party/e2e/engine.cc: ScsiToNvme"]}
{"id": "C50", "title": "Response depends only on the CDB given to Begin", "statement": "Changing the CDB memory between Begin and Complete cannot change which response is produced.", "quantifier": "every CDB and every modification of its memory in between", "why_tests_cant": "schedules", "anchors": ["lib/translator/translation.cc: scsi_cmd_"]}
{"id": "C51", "title": "Trailing CDB bytes are ignored", "statement": "Bytes beyond the CDB length of the opcode do not influence the translation.", "quantifier": "every CDB and every suffix", "why_tests_cant": "all suffixes", "anchors": ["lib/translator/translation.cc", "lib/translator/common.h: ReadValue"]}
{"id": "C52", "title": "Zero-length transfers are not errors", "statement": "A READ/WRITE(10/12/16) or VERIFY(10) with transfer length 0 transfers nothing and completes GOOD (SBC-3: zero is not an error).", "quantifier": "every such CDB", "why_tests_cant": "all CDBs", "anchors": ["lib/translator/read.cc: Read", "lib/translator/write.cc: Write", "lib/translator/verify.cc"]}
{"id": "C53", "title": "Translation is history-independent", "statement": "The commands exposed by Begin on an idle object depend only on its arguments, memory and the allocator's answers, not on what the object was used for before.", "quantifier": "every two histories ending idle", "why_tests_cant": "pairs of histories", "anchors": ["lib/translator/translation.cc"]}
{"id": "C54", "title": "NVMe errors reach the SCSI caller through the engine", "statement": "If the device fails a submitted command, the engine's caller sees a non-GOOD status.", "quantifier": "every request and device outcome", "why_tests_cant": "all outcomes", "anchors": ["third_party/e2e/engine.cc", "third_party/e2e/nvme_driver.c"]}
{"id": "C55", "title": "The mock adapter forwards the whole transfer length", "statement": "The SCSI mid-layer adapter passes the full data length of the request to the engine.", "quantifier": "every request length", "why_tests_cant": "lengths above 65535 bytes", "anchors": ["third_party/e2e/scsi_mock_module.c"]}
{"id": "C56", "title": "A READ works end to end", "statement": "A READ of 1 to 15 blocks handed to the SCSI adapter submits exactly one NVMe Read, for those blocks of the LUN's namespace, with a buffer of the transfer's size; the device's data arrives, in order, in the initiator's scatterlist; nothing else in memory changes except the adapter's own buffer, which is freed; the result is GOOD with residual 0.", "quantifier": "every CDB size, LBA, LUN, protection and FUA setting, scatterlist layout, data contents", "why_tests_cant": "all scatterlist layouts and memory layouts", "anchors": ["third_party/e2e/scsi_mock_module.c: scsi_queuecommand", "third_party/e2e/engine.cc: ScsiToNvme", "lib/translator/read.cc"]}
{"id": "C57", "title": "A WRITE works end to end", "statement": "A WRITE of 1 to 15 blocks handed to the SCSI adapter submits exactly one NVMe Write for those blocks of the LUN's namespace; when it reaches the device the submitted buffer holds the initiator's bytes in order; if the device acknowledges it the result is GOOD and the adapter's buffer is freed.", "quantifier": "every CDB size, LBA, LUN, scatterlist layout, data contents, device effect", "why_tests_cant": "all scatterlist and memory layouts", "anchors": ["third_party/e2e/scsi_mock_module.c: scsi_queuecommand", "lib/translator/write.cc"]}
{"id": "C58", "title": "The adapter frees all kernel memory", "statement": "After scsi_queuecommand returns, every kernel allocation made for the request - the data buffer and the engine's pages - has been freed.", "quantifier": "every request, allocator and device behaviour", "why_tests_cant": "all exit paths", "anchors": ["third_party/e2e/scsi_mock_module.c: scsi_queuecommand", "third_party/e2e/engine.cc", "third_party/e2e/util.c"]}
{"id": "C59", "title": "Data-in delivery and residual are exact", "statement": "For a data-in request the scatterlist receives, from its start, exactly the first k bytes of the data buffer as the engine left it, k = min(response length, scatterlist length) <= the request's length; residual = request length - k; nothing else changes. If no buffer can be allocated the result is 23 and nothing is submitted or changed.", "quantifier": "every request, scatterlist, engine outcome", "why_tests_cant": "all layouts and lengths", "anchors": ["third_party/e2e/scsi_mock_module.c: scsi_queuecommand"]}
{"id": "C60", "title": "The device never transfers beyond the adapter's buffer", "statement": "Each Read or Write the adapter submits for a READ/WRITE request transfers at most the number of bytes of the buffer submitted with it, which is one the adapter allocated.", "quantifier": "every READ and WRITE request", "why_tests_cant": "lengths of 65536 bytes and more", "anchors": ["third_party/e2e/scsi_mock_module.c: scsi_queuecommand"]}
{"id": "C61", "title": "No-data commands work end to end", "statement": "TEST UNIT READY through the adapter returns GOOD, submits nothing and changes nothing; SYNCHRONIZE CACHE(10) submits exactly one NVMe Flush for the LUN's namespace and returns GOOD if the device acknowledges it.", "quantifier": "every CDB content after the opcode, LUN, device effect", "why_tests_cant": "all CDBs and LUNs", "anchors": ["third_party/e2e/scsi_mock_module.c", "lib/translator/synchronize_cache.cc"]}
{"id": "C62", "title": "REPORT LUNS works end to end", "statement": "A REPORT LUNS whose allocation length has room for the whole list makes the adapter submit exactly one Identify (active namespace list) into a fresh page, and the initiator's scatterlist receives the LUN list of the device's active namespaces followed by zeros up to the allocation length; result GOOD, residual the rest of the buffer, no other memory in use changes.", "quantifier": "every CDB, scatterlist shape, namespace list, device that answers Identify, allocator that does not run out", "why_tests_cant": "all lists, memory layouts and allocator answers", "anchors": ["third_party/e2e/scsi_mock_module.c: scsi_queuecommand", "third_party/e2e/engine.cc: ScsiToNvme", "lib/translator/report_luns.cc"]}
{"id": "C63", "title": "INQUIRY works end to end", "statement": "An INQUIRY (standard data or any listed VPD page) whose answer fits the allocation length makes the adapter submit exactly the two Identify commands (the LUN's namespace, the controller) and the initiator receives the specified answer followed by zeros; an unsupported page is refused.", "quantifier": "every CDB, LUN, Identify contents, scatterlist shape", "why_tests_cant": "all Identify contents and memory layouts", "anchors": ["third_party/e2e/scsi_mock_module.c", "third_party/e2e/engine.cc", "lib/translator/inquiry.cc"]}
{"id": "C64", "title": "READ CAPACITY(10) works end to end", "statement": "READ CAPACITY(10) through the adapter submits one Identify of the LUN's namespace and the initiator receives the address of the last logical block (capped at FFFFFFFFh) and the block size.", "quantifier": "every namespace size and format, scatterlist shape, allocator", "why_tests_cant": "all sizes", "anchors": ["third_party/e2e/scsi_mock_module.c", "lib/translator/read_capacity_10.cc"]}
{"id": "C65", "title": "Kernel requests are never leaked", "statement": "For every NVMe command the driver glue submits, a request obtained from the block layer is given back exactly once and last; the command is executed at most once, on the queue and disk asked for, with its data buffer mapped beforehand; it is executed exactly when the block layer provided a request and the mapping succeeded; if it is not executed, memory is unchanged.", "quantifier": "every submission (with or without data), every answer of the block layer", "why_tests_cant": "each failure point of the block layer must be hit for every kind of command", "anchors": ["third_party/e2e/nvme_driver.c: nvme_submit_user_cmd, nvme_alloc_request, submit_req_done"]}
{"id": "C66", "title": "The submit functions report the outcome", "statement": "submit_admin_command and submit_io_command return 0 exactly when the device executed the command successfully, and a non-zero code otherwise.", "quantifier": "every command, device status and block-layer failure", "why_tests_cant": "needs every failure of device and kernel", "anchors": ["third_party/e2e/nvme_driver.c: nvme_submit_user_cmd, submit_admin_command, submit_io_command"]}
{"id": "C67", "title": "No silent loss of commands", "statement": "A SCSI command whose NVMe command never reached the device is not answered with GOOD status.", "quantifier": "every READ and WRITE, every kernel state", "why_tests_cant": "needs a kernel that fails at an arbitrary point", "anchors": ["third_party/e2e/nvme_driver.c: nvme_submit_user_cmd", "third_party/e2e/engine.cc: ScsiToNvme", "third_party/e2e/scsi_mock_module.c: scsi_queuecommand"]}
{"id": "C68", "title": "A failed module load leaves nothing behind", "statement": "If loading the module fails, everything acquired on the way has been released, each thing before what it is attached to.", "quantifier": "every combination of failing kernel registrations", "why_tests_cant": "failure injection at each step in turn", "anchors": ["third_party/e2e/scsi_mock_module.c: scsi_mock_init, scsi_mock_add_device, bus_driver_probe", "third_party/e2e/nvme_driver.c: nvme_driver_init"]}
{"id": "C69", "title": "Unloading the module releases everything", "statement": "After a successful load and an unload nothing acquired is held any more, nothing was released before what is attached to it, and the order of release is the reverse of the order of acquisition.", "quantifier": "every environment in which the module loads", "why_tests_cant": "all outcomes of host allocation, probing and opening the device", "anchors": ["third_party/e2e/scsi_mock_module.c: scsi_mock_init, scsi_mock_exit, bus_remove", "third_party/e2e/nvme_driver.c: nvme_driver_init"]}
{"id": "C70", "title": "A loaded module works", "statement": "If loading succeeds, the NVMe device was found and a SCSI host is registered; loading fails if any step failed.", "quantifier": "every environment", "why_tests_cant": "all combinations of failures", "anchors": ["third_party/e2e/scsi_mock_module.c: scsi_mock_init, bus_driver_probe", "third_party/e2e/nvme_driver.c: nvme_driver_init, submit_admin_command, submit_io_command"]}
{"id": "C71", "title": "Probing binds the adapter's device, and only it, once", "statement": "The bus's probe binds a device exactly if it is the adapter's and no host is registered for it, and a host can be allocated and added; a failed probe holds nothing; after the device was removed it can be bound again.", "quantifier": "every device, probe history and kernel answer", "why_tests_cant": "histories of bind and unbind", "anchors": ["third_party/e2e/scsi_mock_module.c: bus_driver_probe, bus_remove"]}
{"id": "C72", "title": "Which NVMe commands a SCSI command can lead to", "statement": "Whatever the CDB (UNMAP apart, see C37), every NVMe command a Begin issues is one its SCSI operation code may lead to: READ gives NVM Read, WRITE gives NVM Write, VERIFY Compare, SYNCHRONIZE CACHE Flush, INQUIRY/READ CAPACITY/REPORT LUNS/MAINTENANCE IN Identify, MODE SENSE Identify and Get Features, all other operation codes nothing; each on the right queue and naming the LUN's namespace. In particular only a WRITE can change the medium: no other CDB leads to a command that writes, formats or configures. (For UNMAP the exact list of commands is stated separately: a first command -- Deallocate if its parameters are in order and a page was given, otherwise whatever the object still held in its first slot -- followed by the commands of the MODE SENSE(6) with the same bytes.)", "quantifier": "every CDB of any length and content (UNMAP apart), buffer, LUN, allocator and memory", "why_tests_cant": "a security-style exclusion over all CDB bytes", "anchors": ["lib/translator/translation.cc: Begin", "lib/translator/*.cc: *ToNvme"]}
{"id": "C73", "title": "NVMe commands name only the caller's buffer or pages the object holds", "statement": "No issued NVMe command has a metadata pointer or a second PRP; its first PRP is the caller's buffer (only for READ and WRITE), a page the object obtained from the allocator and still holds (only Identify), or zero in a Flush, Compare or Get Features. So the device is never told to access any other memory.", "quantifier": "every CDB (UNMAP apart), buffer, LUN, allocator and memory", "why_tests_cant": "DMA safety over all CDBs and allocator answers", "anchors": ["lib/translator/translation.cc: Begin", "lib/translator/common.cc: Allocation::SetPages"]}
{"id": "C74", "title": "The status tells which buffer was written", "statement": "If Complete returns failure, no memory changed. If it returns GOOD, only the data buffer can have changed. If it returns any other SCSI status, only the first 8 bytes of the sense buffer can have changed, and nothing at all if the sense buffer is shorter: no data is delivered with an error and no sense with a success.", "quantifier": "every history of API calls, completions, buffers and memory", "why_tests_cant": "all commands, completions and aliasing of buffers", "anchors": ["lib/translator/translation.cc: Complete", "lib/translator/common.cc: FillSenseBuffer"]}
{"id": "C75", "title": "A command that cannot get its pages is refused", "statement": "If the allocator fails any request for pages during Begin, the command is not accepted, nothing is exposed to the device and nothing is held.", "quantifier": "every CDB, allocator (failing at any call) and memory", "why_tests_cant": "every pattern of allocation failures", "anchors": ["lib/translator/translation.cc: Begin", "lib/translator/common.cc: Allocation::SetPages"]}
{"id": "C76", "title": "Objects sharing the page callbacks do not disturb each other", "statement": "For any interleaving of calls on any number of translation objects the pages out at the allocator are exactly those the objects hold; with an allocator that does not hand out a page still out, no two pages in use overlap, so commands in flight on different objects cannot overwrite each other's data.", "quantifier": "every number of objects, interleaving of their calls, and allocator", "why_tests_cant": "all interleavings", "anchors": ["lib/translator/translation.h: Translation", "lib/translator/common.cc: SetPageCallbacks, AllocPages, DeallocPages"]}
{"id": "C77", "title": "Each call changes the page ledger exactly as documented", "statement": "Complete and AbortPipeline return exactly the pages held, each once, and ask for none, on every path; a Begin that is not accepted leaves the pages out as they were.", "quantifier": "every history, completions and buffers", "why_tests_cant": "all histories and failure points", "anchors": ["lib/translator/translation.cc: Begin, Complete, AbortPipeline, FlushMemory"]}
{"id": "C78", "title": "No uninitialised storage reaches the device or the initiator's data", "statement": "The NVMe commands issued, and the data and status of every command that ends GOOD, do not depend on the contents of uninitialised stack storage.", "quantifier": "every CDB, completions, buffers and contents of uninitialised storage", "why_tests_cant": "information-flow over all inputs", "anchors": ["lib/translator/inquiry.cc: TranslateUnitSerialNumberVpd", "lib/translator/translation.cc: Begin, Complete"]}
{"id": "C79", "title": "Reads and writes through the library behave like a disk", "statement": "Take any NVMe device that stores blocks as the NVMe specification says. One Translation object is handed READs and WRITEs of any of the four CDB forms, one after the other, the device executing what each Begin exposes. Then each READ returns exactly the blocks last written there, each WRITE changes exactly its blocks of its unit, commands beyond the unit's capacity end CHECK CONDITION with LBA OUT OF RANGE sense data and change nothing, no other main memory is touched and no page is allocated.", "quantifier": "every capacity and initial contents, every object state between commands, every history of READ/WRITE commands of 1 to 65535 blocks to any units, with arbitrary changes of main memory in between", "why_tests_cant": "quantifies over unbounded command histories, all contents and all addresses; needs an invariant relating the device's medium to an abstract disk", "anchors": ["lib/translator/translation.cc: Begin, GetNvmeWrappers, Complete", "lib/translator/read.cc", "lib/translator/write.cc", "lib/translator/status.cc"]}
{"id": "C80", "title": "Reads and writes through the SCSI adapter behave like a disk", "statement": "With the same device behind the kernel module, every history of READs and WRITEs of up to 15 blocks queued to the adapter yields, command by command, the answers of an ideal disk: data in the initiator's scatterlist, status, residual count and sense data; and the adapter's kernel buffer is allocated and released exactly once per command.", "quantifier": "every history, unit, LBA, length up to 15 blocks, scatterlist, buffer address and device contents", "why_tests_cant": "unbounded histories and all scatterlist shapes and contents", "anchors": ["third_party/e2e/scsi_mock_module.c: scsi_queuecommand", "third_party/e2e/engine.cc: ScsiToNvme", "lib/translator/translation.cc"]}
{"id": "C81", "title": "Acknowledged writes are read back; everything else is unaffected", "statement": "Through the adapter, a READ returns for each block the data of the last acknowledged WRITE covering it, no matter what was read, written elsewhere or refused in between; a block not covered by any acknowledged WRITE still reads as it did at the start.", "quantifier": "every history of commands to any units, every block and offset", "why_tests_cant": "a statement about all interleavings of commands to all units", "anchors": ["third_party/e2e/scsi_mock_module.c: scsi_queuecommand", "lib/translator/read.cc", "lib/translator/write.cc"]}
{"id": "C82", "title": "Only single 4096-byte pages are requested, and the kernel module supplies zeroed ones", "statement": "Begin asks the page allocator for 4096-byte pages only, one at a time (or for none), whatever the CDB and history; Complete asks for nothing. On any kernel heap that hands out unused memory, the callbacks the module installs meet the contract the translation library relies on, and the pages are zeroed.", "quantifier": "every reachable object state, CDB, buffer and allocator; every kernel heap", "why_tests_cant": "ranges over all CDBs, histories and heap behaviours", "anchors": ["lib/translator/common.cc: AllocPages, Allocation::SetPages", "lib/translator/translation.cc: Begin, Complete", "third_party/e2e/util.c: AllocPages, DeallocPages"]}
{"id": "C83", "title": "A call stays within the memory it was given", "statement": "Begin, Complete and Abort depend on and change no memory except the CDB, the buffers passed to them and the pages the object holds: mapping more memory never changes what a call does and that memory is left alone; two worlds that agree on those bytes see the same result, the same allocator calls, and every byte of memory is either equal afterwards or untouched in both.", "quantifier": "every object state, CDB, buffers, completions, memory contents, allocator", "why_tests_cant": "quantifies over all memory the test does not set up", "anchors": ["lib/translator/translation.cc: Translation::Begin, Translation::Complete, Translation::AbortPipeline", "lib/translator/common.h: ReadValue, WriteValue, Span, SafePointerCastRead"]}
{"id": "C84", "title": "No page is used after its release", "statement": "If the release callback takes the pages away at once, every call still returns the same result, makes the same allocator calls and leaves the same memory, apart from the released pages, and has no undefined behaviour it did not have otherwise.", "quantifier": "every object state, CDB, buffers, completions, world", "why_tests_cant": "test allocators keep freed pages readable; order of release and access must be right on every path", "anchors": ["lib/translator/translation.cc: Translation::FlushMemory, Translation::AbortPipeline, Translation::Begin, Translation::Complete", "lib/translator/common.cc: DeallocPages"]}
{"id": "C85", "title": "Other commands leave stored data alone", "statement": "Whatever commands other than WRITE and UNMAP are served between reads and writes, by the same object or through the adapter, with whatever Identify data and completion status the device answers them, the logical units keep behaving as one disk: what was written and acknowledged is read back.", "quantifier": "every history of reads, writes and other CDBs (well-formed or not), every device answer, every change of main memory in between", "why_tests_cant": "unbounded mixed histories over arbitrary CDBs and device answers", "anchors": ["lib/translator/translation.cc: Translation::Begin, Translation::Complete", "third_party/e2e/engine.cc: ScsiToNvme", "third_party/e2e/scsi_mock_module.c: scsi_queuecommand"]}
{"id": "C86", "title": "Calls on different objects can run at the same time", "statement": "Let any number of Begin, Complete and AbortPipeline calls on different objects run at the same time, each with its own CDB, buffers and pages, under any interleaving of their memory accesses and allocator calls, with an allocator that hands out memory not in use. No call runs into undefined behaviour; a call that has finished has the response, the allocator calls and the memory contents it would have alone; memory that belongs to no call is not written; and, with an allocator that keeps answering, every call can be brought to its end.", "quantifier": "every number of calls, object states, memories, schedule", "why_tests_cant": "interleavings are unbounded, and tests run one call at a time", "anchors": ["lib/translator/translation.cc: Translation::Begin, Translation::Complete, Translation::AbortPipeline", "lib/translator/common.cc: AllocPages, DeallocPages"]}
{"id": "C87", "title": "Forced and synchronized writes survive power failures", "statement": "Through the adapter, with a device that keeps a volatile write cache and honours Flush and the NVMe Force Unit Access bit: once a write with FUA has been answered GOOD, or any write followed by a SYNCHRONIZE CACHE of its logical unit answered GOOD, its data are read back after any number of power failures (also in the middle of other commands), as long as no later write touches the block. After a power failure every other block has its last synchronized contents or those of a later write, and never anything else.", "quantifier": "every history of reads, writes, other commands, cache synchronizations and power failures at every point, also in the middle of a write; every choice of the device of what to save when", "why_tests_cant": "crash points and the device's write-back choices are unbounded; a dropped FUA bit or a Flush of the wrong namespace shows only when power fails", "anchors": ["lib/translator/write.cc: Write6ToNvme, Write10ToNvme, Write12ToNvme, Write16ToNvme", "lib/translator/synchronize_cache.cc: SynchronizeCache10ToNvme", "third_party/e2e/engine.cc: ScsiToNvme", "third_party/e2e/scsi_mock_module.c: scsi_queuecommand"]}
{"id": "C88", "title": "Complete is undefined in exactly these cases", "statement": "After Begin on an idle object, Complete has undefined behaviour if and only if the CDB was accepted, the completions are one successful one for each command exposed, and: it is a MODE SENSE(6) without block descriptor for page 0Ah or 1Ah (there is no completion to read); or a MODE SENSE(6) with block descriptor, a buffer of 4 bytes or more and a namespace with block size exponent 32 or more; or a MODE SENSE(10) with a buffer of 8 bytes or more, unless it has a block descriptor that does not fit and the exponent is below 32. In every other case Complete returns.", "quantifier": "every idle object, CDB, LUN, memory, allocator, page contents written by the device, list of completions, response buffer and sense buffer (mapped, apart from the held page)", "why_tests_cant": "A test run shows one input not crashing; undefined behaviour may not show at all, and its absence is about all CDBs, page contents, buffer sizes and completion lists.", "anchors": ["lib/translator/translation.cc: Translation::Complete", "lib/translator/mode_sense.cc: ModeSenseToScsi, WriteBlockDescriptor, WritePageData, GetModeDataLength"]}
{"id": "C89", "title": "Exactly which requests are accepted", "statement": "Begin on an idle object accepts a request if and only if the acceptance condition for its opcode holds (CDB long enough, the fields of that command valid, the buffer large enough for a READ, and the page allocator having granted every page the command needs; for UNMAP and MODE SENSE(10) the condition that results from falling through the missing breaks), and on acceptance the announced response length is the one the CDB asks for.", "quantifier": "every idle object, opcode and CDB of any length, buffer, LUN, memory and sequence of allocator answers", "why_tests_cant": "The claim is an equivalence over all 256 opcodes, all CDB contents and all allocator behaviours; tests sample a few accepted and refused CDBs per opcode.", "anchors": ["lib/translator/translation.cc: Translation::Begin", "lib/translator/read.cc", "lib/translator/write.cc", "lib/translator/unmap.cc", "lib/translator/mode_sense.cc", "lib/translator/inquiry.cc", "lib/translator/report_luns.cc", "lib/translator/maintenance_in.cc"]}
{"id": "C90", "title": "Exactly which pages the engine and the adapter fail to free", "statement": "After one request through the engine, or one SCSI command through the kernel adapter, the memory held is what was held before plus, if the request was accepted and its announced response length exceeds the data buffer, precisely the pages granted for it; in every other case nothing more is held.", "quantifier": "every request, driver behaviour, allocator history and data length", "why_tests_cant": "Tests cannot show absence of leaks for all CDBs, allocation lengths, completion statuses and allocator answers.", "anchors": ["third_party/e2e/engine.cc: ScsiToNvme", "third_party/e2e/scsi_mock_module.c: scsi_queuecommand"]}
{"id": "C91", "title": "The outcome of every request is determined", "statement": "The announced response length is a function of the CDB alone. A request through the engine or the kernel adapter is aborted (TASK ABORTED, no NVMe command sent) exactly when that length exceeds the data buffer; otherwise, if the acceptance condition fails, it ends with CHECK CONDITION, sense 5/24h/0 and no NVMe command; otherwise with the SCSI status and sense of the first NVMe command that failed, and with GOOD exactly when none did. The adapter's residual is the data length minus the smaller of the announced length (0 if aborted) and the scatterlist size.", "quantifier": "every CDB of any length and opcode, data length, driver behaviour, allocator behaviour, LUN and memory", "why_tests_cant": "It is a total description of results for all CDBs, allocator answers and completion statuses; tests sample a few.", "anchors": ["lib/translator/translation.cc: Translation::Begin, Translation::Complete", "third_party/e2e/engine.cc: ScsiToNvme", "third_party/e2e/scsi_mock_module.c: scsi_queuecommand"]}
{"id": "C92", "title": "Reads and writes through the complete kernel module behave like a disk", "statement": "Queue any history of READs and WRITEs of up to 15 blocks to the SCSI adapter, with the module's own engine, translation library and NVMe driver below it and a device that stores blocks behind the Linux block layer, mixed with any other commands but UNMAP. Then every command gets the answer of an ideal disk: what was written and acknowledged is read back, and a command that was not carried out (no request could be had, the buffer could not be mapped, or it reaches beyond the capacity) is not answered GOOD.", "quantifier": "every history of READ/WRITE(6/10/12/16) commands, every state of the block layer at each command, every capacity, memory contents and scatterlist, arbitrary memory changes between commands", "why_tests_cant": "It is a refinement over unbounded histories and all failures of the block layer; tests cannot enumerate them and the repository has none for the kernel module.", "anchors": ["third_party/e2e/scsi_mock_module.c: scsi_queuecommand", "third_party/e2e/engine.cc: ScsiToNvme", "third_party/e2e/nvme_driver.c: nvme_submit_user_cmd, submit_io_command"]}
{"id": "C93", "title": "Debug messages are well formed, complete and safe to print", "statement": "With a debug callback installed, no call of the library has undefined behaviour because of a debug message: whatever the values logged, the callback receives the whole message (at most 1023 characters, nothing truncated), and the message contains no conversion specification, so a callback that hands it to printk as the format (as the kernel module's does) prints it verbatim. Without a callback nothing is done. The message Begin logs for a command names it and its operation code, from which the code can be read back, and an accepted command has a name.", "quantifier": "every place in lib/translator that logs a message and all values of its arguments; every CDB for the message of Begin; every reachable object for that of Complete", "why_tests_cant": "There is no test that installs a callback and inspects a message with arguments, and undefined behaviour of a variadic call cannot be observed by a test.", "anchors": ["lib/translator/common.cc: DebugLog, SetDebugCallback, ScsiOpcodeToString", "lib/translator/translation.cc: Begin, Complete", "lib/translator/report_luns.cc: ReportLunsToNvme", "third_party/e2e/util.c: Print"]}
{"id": "C94", "title": "The answer to a command tells whether the device carried it out", "statement": "Queue any command to the SCSI adapter of the complete kernel module. It is answered GOOD only if the NVMe commands it needs were handed to the device and completed without error; otherwise the initiator sees an error status and sense data.", "quantifier": "every CDB and buffer, every state of the block layer at every submission, every behaviour of the device and every memory contents", "why_tests_cant": "It ranges over all commands, all failures of the block layer at any of the submissions and all device behaviours; the repository has no test for the kernel module.", "anchors": ["third_party/e2e/scsi_mock_module.c: scsi_queuecommand", "third_party/e2e/engine.cc: ScsiToNvme", "third_party/e2e/nvme_driver.c: nvme_submit_user_cmd, submit_admin_command, submit_io_command", "lib/translator/translation.cc: Complete"]}
{"id": "C95", "title": "Forced and synchronized writes survive power failures through the complete kernel module", "statement": "Through the complete kernel module, a WRITE with Force Unit Access, or a WRITE followed by SYNCHRONIZE CACHE on the same unit, once answered GOOD, survives any number of power failures: until the block is written again, a READ of it returns the data. Blocks not written keep their contents, and a write cut short leaves each block old or new.", "quantifier": "every history of reads, writes, synchronizations, other commands, environment steps, power failures and writes cut short; every device that caches what it likes; every state of the block layer at every submission", "why_tests_cant": "It ranges over unbounded histories, every crash point, every choice the device's cache makes and every block layer failure; the repository has no test of the kernel module.", "anchors": ["third_party/e2e/scsi_mock_module.c: scsi_queuecommand", "third_party/e2e/engine.cc: ScsiToNvme", "third_party/e2e/nvme_driver.c: nvme_submit_user_cmd", "lib/translator/write.cc", "lib/translator/synchronize_cache.cc"]}
{"id": "C96", "title": "Commands queued at the same time are linearizable", "statement": "READ and WRITE commands queued to the adapter from any number of threads at the same time, to units all of them share, have the answers and the effect of executing them one after the other: each command takes effect at one moment between its first step and its answer, so a command answered before another one started comes before it, and a thread that starts reading a block after its WRITE was answered GOOD gets what was written. No thread gets stuck or runs into undefined behaviour, and no thread changes another one's memory. Through the complete kernel module the same holds, with each command carried out or lost as a whole.", "quantifier": "every number of threads, every interleaving of their memory accesses, allocator calls and submissions, every schedule, every state of the block layer at every submission, every answer of the allocators", "why_tests_cant": "The interleavings are unboundedly many; the adapter takes no lock around queuecommand (the host template allows concurrent calls), and no test runs it concurrently.", "anchors": ["third_party/e2e/scsi_mock_module.c: scsi_queuecommand", "third_party/e2e/engine.cc: ScsiToNvme", "third_party/e2e/nvme_driver.c: nvme_submit_user_cmd", "lib/translator/translation.cc: Begin, Complete, AbortPipeline", "lib/translator/read.cc", "lib/translator/write.cc"]}
{"id": "C97", "title": "An aborted command has no further effect", "statement": "Once the adapter's abort handler has reported success for a command, the command no longer changes the medium, its scatterlist or its sense buffer (the mid layer reuses them).", "quantifier": "every number of concurrent commands, every interleaving, every moment of the abort and every continuation", "why_tests_cant": "The claim is about all schedules after the abort; no test aborts a command.", "anchors": ["third_party/e2e/scsi_mock_module.c: scsi_abort, scsi_queuecommand"]}
{"id": "C98", "title": "Units found with REPORT LUNS address the namespaces they stand for", "statement": "An initiator that reads an entry of the REPORT LUNS response as SAM prescribes (and as Linux does) and sends a READ, WRITE or SYNCHRONIZE CACHE to that unit reaches the namespace the entry stands for.", "quantifier": "every namespace list, every entry, every data command and object state", "why_tests_cant": "The claim spans the encoding of one command's response and the decoding of every later command's unit number, for all namespace identifiers; the unit tests compare the response with the same encoding the code uses.", "anchors": ["lib/translator/report_luns.cc: ReportLunsToScsi", "lib/translator/translation.cc: Begin", "third_party/e2e/scsi_mock_module.c: scsi_queuecommand"]}
{"id": "C99", "title": "The announced last block exists and is the last", "statement": "After READ CAPACITY(10) through the adapter announces the address of the last logical block, a later READ or WRITE of blocks up to and including that address is carried out, and one reaching beyond it is refused with LBA OUT OF RANGE.", "quantifier": "every device capacity, every unit, every later READ/WRITE form, address and length, every object and memory state", "why_tests_cant": "The claim relates the answer of one command to the outcome of every later command on a device of any size; the unit tests compare the answer with the code's own formula.", "anchors": ["lib/translator/read_capacity_10.cc: ReadCapacity10ToScsi", "lib/translator/read.cc", "lib/translator/write.cc", "third_party/e2e/scsi_mock_module.c: scsi_queuecommand"]}
{"id": "C100", "title": "The announced block length is the one used", "statement": "If READ CAPACITY(10) announces blocks of b bytes, then READ and WRITE of n blocks with a buffer of n*b bytes are accepted and tell the device about exactly those n*b bytes.", "quantifier": "every announced block length, every READ/WRITE form, every number of blocks and buffer", "why_tests_cant": "It ranges over every formatted block size and every transfer; the unit tests use one buffer size.", "anchors": ["lib/translator/read_capacity_10.cc", "lib/translator/read.cc", "lib/translator/write.cc", "lib/translator/translation.cc: kLbaSize"]}
{"id": "C101", "title": "Transfers within the announced maximum are accepted, others are not", "statement": "A READ of no more blocks than the MAXIMUM TRANSFER LENGTH of the Block Limits page is accepted (zero means no limit); a longer one is refused.", "quantifier": "every controller MDTS value, every READ form, length, buffer and state", "why_tests_cant": "It relates the answer to one command to the treatment of every later one for all MDTS values.", "anchors": ["lib/translator/inquiry.cc: TranslateBlockLimitsVpd", "lib/translator/read.cc", "third_party/e2e/scsi_mock_module.c"]}
{"id": "C102", "title": "UNMAP is accepted if and only if it is announced", "statement": "If the Logical Block Provisioning page announces UNMAP (LBPU) and the Block Limits page gives limits for it, a standard UNMAP within the limits is accepted; if it is not announced, UNMAP is refused.", "quantifier": "every Identify data, every well-formed UNMAP command and parameter list, every state", "why_tests_cant": "Relates two INQUIRY pages to the treatment of every UNMAP.", "anchors": ["lib/translator/inquiry.cc: TranslateLogicalBlockProvisioningVpd, TranslateBlockLimitsVpd", "lib/translator/unmap.cc", "lib/translator/translation.cc: Begin"]}
{"id": "C103", "title": "Announced FUA support and sense format are honoured", "statement": "MODE SENSE announces DPOFUA, and every accepted READ/WRITE(10,12,16) passes its FUA bit to the device; it announces D_SENSE, and all sense data returned are in descriptor format.", "quantifier": "every READ/WRITE CDB and state; every failing Complete in every reachable state", "why_tests_cant": "It relates mode data to all later commands and all error paths.", "anchors": ["lib/translator/mode_sense.cc: kControlModePage, WriteMode6Header", "lib/translator/read.cc", "lib/translator/write.cc", "lib/translator/status.cc", "lib/translator/common.cc: FillSenseBuffer"]}
{"id": "C104", "title": "MODE SENSE and READ CAPACITY agree on the size", "statement": "The number of blocks and the block length in the MODE SENSE block descriptor agree with READ CAPACITY(10) for the same namespace (last address = number of blocks - 1, both capped at FFFFFFFFh).", "quantifier": "every Identify Namespace data, every MODE SENSE(6) request with block descriptor", "why_tests_cant": "Ranges over all namespace sizes and block lengths and relates two commands.", "anchors": ["lib/translator/mode_sense.cc: WriteBlockDescriptor", "lib/translator/read_capacity_10.cc"]}
{"id": "C105", "title": "A unit that announces no protection refuses protected transfers", "statement": "If standard INQUIRY data state PROTECT = 0, a READ or WRITE with a nonzero RDPROTECT/WRPROTECT field is refused, and one with zero is accepted.", "quantifier": "every unprotected namespace, every READ/WRITE(10,12,16) that is valid otherwise", "why_tests_cant": "Relates INQUIRY data to all later commands.", "anchors": ["lib/translator/inquiry.cc: TranslateStandardInquiry", "lib/translator/read.cc", "lib/translator/write.cc", "lib/translator/read.cc: BuildPrinfo"]}
{"id": "C106", "title": "MODE SENSE(6) works end to end", "statement": "A MODE SENSE(6) for a supported page sent through the adapter is answered GOOD with the mode parameter data of the namespace (header, block descriptor unless DBD, pages), truncated by the allocation length, with an exact residual, using Identify Namespace and/or Get Features (Volatile Write Cache) and nothing else, and touches no other memory.", "quantifier": "every CDB, unit, allocation length, scatterlist, device answering Identify and Get Features, and memory state", "why_tests_cant": "It spans adapter, engine, library and device for all CDB fields and memory layouts; no test runs the adapter.", "anchors": ["third_party/e2e/scsi_mock_module.c: scsi_queuecommand", "third_party/e2e/engine.cc: ScsiToNvme", "lib/translator/mode_sense.cc"]}
{"id": "C107", "title": "A unit that announces no volatile cache has none in use", "statement": "If MODE SENSE(6) reports WCE = 0 for the current values of the Caching page, writes acknowledged without FUA and without SYNCHRONIZE CACHE survive a power failure; WCE reports the device's volatile write cache setting.", "quantifier": "every device, cache setting, request for page 08h or 3Fh, every write in every history and every power failure", "why_tests_cant": "Relates the answer of one command to all later writes, the device's caching freedom and crash points.", "anchors": ["lib/translator/mode_sense.cc: ModeSenseToScsi", "third_party/e2e/nvme_driver.c", "third_party/e2e/engine.cc", "third_party/e2e/scsi_mock_module.c"]}
{"id": "C108", "title": "REQUEST SENSE works end to end", "statement": "A REQUEST SENSE sent through the adapter is answered GOOD with NO SENSE data in the format asked for (fixed or descriptor), cut at the allocation length, with an exact residual, without any NVMe command, and touches no memory but the initiator's buffer; the answer does not depend on the device or on earlier commands.", "quantifier": "every CDB, allocation length, scatterlist, device and memory state", "why_tests_cant": "It spans adapter, engine and library for all CDB fields and memory layouts; no test runs the adapter.", "anchors": ["third_party/e2e/scsi_mock_module.c: scsi_queuecommand", "third_party/e2e/engine.cc: ScsiToNvme", "lib/translator/request_sense.cc"]}
{"id": "C109", "title": "The size of the CDB does not matter", "statement": "READ CDBs of different sizes (6, 10, 12, 16 bytes) that ask for the same blocks in the same way are treated alike: all refused, or all accepted with the same response and the same NVMe command. The same holds for WRITE.", "quantifier": "every pair of sizes, CDBs, objects, buffers, LUNs and worlds", "why_tests_cant": "Relates two executions for all pairs of CDBs.", "anchors": ["lib/translator/read.cc", "lib/translator/write.cc", "lib/translator/translation.cc: Begin"]}
{"id": "C110", "title": "A successful VERIFY means the blocks were verified", "statement": "If VERIFY(10) is answered GOOD, the named blocks of the unit's namespace were verified (and, with BYTCHK, compared with the data sent); it fails only if that fails.", "quantifier": "every unit, CDB, BYTCHK, data, device and memory state", "why_tests_cant": "Quantifies over every device behaviour and spans all layers; the unit test of VERIFY looks only at opcode and length fields.", "anchors": ["lib/translator/verify.cc: VerifyToNvme", "lib/translator/translation.cc: Begin", "third_party/e2e/scsi_mock_module.c: scsi_queuecommand", "third_party/e2e/nvme_driver.c"]}
{"id": "C111", "title": "Every command queued to the adapter is answered with a SCSI status", "statement": "For every command the kernel queues, with a mapped CDB, sense buffer and scatterlist, the adapter comes to its end without undefined behaviour, whatever the CDB, the allocators' answers and the device's completions and data, and answers with one of the status codes of SAM-5.", "quantifier": "every CDB of every length and opcode, scatterlist, data direction, allocation failure, device behaviour that leaves the CDB alone and unmaps nothing, and memory state", "why_tests_cant": "Totality over all CDB bytes, allocation failures and device answers; no test runs the adapter.", "anchors": ["third_party/e2e/scsi_mock_module.c: scsi_queuecommand, respond", "third_party/e2e/engine.cc: ScsiToNvme", "lib/translator/translation.cc: Begin, Complete"]}
{"id": "C112", "title": "Commands queued at once do not disturb each other", "statement": "Any number of commands of any kind may be queued at the same time, each with its own CDB, buffers and sense buffer: whatever order their memory accesses, allocations and NVMe submissions are interleaved in, and whatever the device answers, no thread ever fails or gets stuck because of another; each ends with the answer and the data in its own buffers that it would have got alone from a device giving the same completions; and memory that belongs to none of them is not touched.", "quantifier": "every number of threads, all CDBs, scatterlists and logical units, every interleaving, every device behaviour within the memory a thread may let it write to, every allocator answer", "why_tests_cant": "The interleavings of any number of threads at every memory access cannot be enumerated, and the project has no concurrent test.", "anchors": ["third_party/e2e/scsi_mock_module.c: scsi_queuecommand, respond", "third_party/e2e/engine.cc: ScsiToNvme", "lib/translator/translation.cc: Begin, Complete"]}
{"id": "C113", "title": "Commands queued at once give back what they took, once", "statement": "While any number of commands are queued at the same time, the shared page allocator is at every moment in order: no page is released twice or without having been handed out, no thread releases a page handed out to another, and what is outstanding is exactly what the threads still running have not released yet. Once every one of them has been answered, nothing they took is outstanding.", "quantifier": "every number of threads, all CDBs, every interleaving of their allocations, releases and submissions, every device and allocator behaviour the page supply allows", "why_tests_cant": "A double or missing release shows only under particular interleavings, allocator answers and device answers, none of which the tests produce.", "anchors": ["third_party/e2e/scsi_mock_module.c: scsi_queuecommand, respond", "third_party/e2e/engine.cc: ScsiToNvme", "lib/translator/translation.cc: Begin, AbortPipeline, Complete"]}
{"id": "C114", "title": "A command that fails says why", "statement": "Every command queued to the adapter that comes back tells the truth about its end in the status and the sense buffer: GOOD only if every NVMe command submitted for it succeeded, with the sense buffer untouched; if one failed, the SCSI status and descriptor-format sense data that belong to the first failing completion; if the command was refused, CHECK CONDITION with ILLEGAL REQUEST / INVALID FIELD IN CDB and nothing submitted; if it was given up, nothing submitted and the sense buffer untouched. CHECK CONDITION is never returned without sense data.", "quantifier": "all commands of every kind, all buffers, logical units, allocator answers and device behaviours that spare the sense buffer", "why_tests_cant": "Every pair of a command and a sequence of completions would have to be tried through the adapter, and the project has no test of it at all.", "anchors": ["third_party/e2e/scsi_mock_module.c: scsi_queuecommand", "third_party/e2e/engine.cc: ScsiToNvme", "lib/translator/translation.cc: Complete", "lib/translator/status.cc: StatusToScsi", "lib/translator/common.cc: FillSenseBuffer"]}
{"id": "C115", "title": "No uninitialised memory reaches the initiator", "statement": "What a command queued to the adapter brings back - status, residual, data in the scatterlist and sense data - and what it submits to the device depend only on the command, the memory the initiator provided, the device and the allocator: never on what the kernel stack happened to hold.", "quantifier": "all commands of every kind, all scatterlists, devices and allocator answers, and all contents of uninitialised stack variables", "why_tests_cant": "Uninitialised memory is usually zero in a test process, so a test passes whether or not it is read; every content would have to be tried.", "anchors": ["third_party/e2e/scsi_mock_module.c: scsi_queuecommand", "third_party/e2e/engine.cc: ScsiToNvme", "lib/translator/inquiry.cc: TranslateUnitSerialNumberVpd", "lib/translator/common.cc: FillSenseBuffer"]}
{"id": "C116", "title": "Units are told apart and recognised by their identification pages", "statement": "Two units with different identities (NGUID, else EUI-64, else serial number and namespace ID), asked through the adapter for their Unit Serial Number page, answer differently within the first 44 bytes; a unit asked again gives the same answer. Their Device Identification pages agree exactly if they have the same NGUID, or the same EUI-64.", "quantifier": "all pairs of units, devices, adapters, CDBs asking for the page, allocation lengths from 44 on, scatterlists, memory layouts and contents of uninitialised memory", "why_tests_cant": "The claim compares all pairs of identities; a test compares a few.", "anchors": ["lib/translator/inquiry.cc: TranslateUnitSerialNumberVpd, TranslateDeviceIdentificationVpd", "third_party/e2e/scsi_mock_module.c: scsi_queuecommand", "third_party/e2e/engine.cc: ScsiToNvme"]}
{"id": "C117", "title": "Each command among others gets the outcome of its own request", "statement": "Whatever other SCSI commands the kernel module has under way and however their steps interleave, a command that has ended has exactly the status, residual count and sense data its own CDB, its own data-out buffer, the page allocator's answers to it and the completions of its own NVMe commands determine; its sense data is in its own sense buffer in the shared memory; a command that is not acceptable handed nothing to the device. In particular it is answered GOOD exactly if its CDB is acceptable, its announced answer fits its buffer, and each of its own NVMe commands succeeded.", "quantifier": "all finite sets of queued commands, CDBs, buffers, memory partitions, interleavings, device behaviours and completions, allocator answers and failures of the page callback", "why_tests_cant": "The claim quantifies over all schedules of any number of commands and over every combination of device outcomes; a test runs a few.", "anchors": ["third_party/e2e/scsi_mock_module.c: scsi_queuecommand", "third_party/e2e/engine.cc: ScsiToNvme", "lib/translator/translation.cc: Begin, Complete"]}
{"id": "C118", "title": "Commands queued at once reach the device only as what they are", "statement": "Whatever other SCSI commands the kernel module has under way and however their steps interleave, at every moment each NVMe command handed to the driver for a SCSI command is one that SCSI operation code may be carried out with (reads as Read, writes as Write, VERIFY as Compare, SYNCHRONIZE CACHE as Flush, the inquiry-like commands as Identify and Get Features, all others as none), on the queue it belongs to, for the namespace of its own LUN (or none), and it names no memory but the command's own buffer or a page the allocator has by then given to that very command; the buffer the driver is told is the one the command names.", "quantifier": "all finite sets of queued commands, CDBs (other than UNMAP), LUNs, buffers, memory partitions, interleavings, device behaviours and completions, allocator answers and failures, and all moments of the execution", "why_tests_cant": "The claim quantifies over all schedules of any number of commands and over all moments in them; a test runs a few schedules.", "anchors": ["third_party/e2e/scsi_mock_module.c: scsi_queuecommand", "third_party/e2e/engine.cc: ScsiToNvme", "lib/translator/translation.cc: Begin"]}
{"id": "C119", "title": "INQUIRY honours every allocation length", "statement": "An INQUIRY sent through the adapter with any allocation length is answered GOOD with the beginning of its answer (standard data or VPD page), truncated to the allocation length and followed by zeros, with an exact residual, using exactly the two Identify commands and changing no memory beyond the allocation length.", "quantifier": "all allocation lengths, pages (listed or not), namespaces and controllers, LUNs, scatterlists, memory layouts and devices that answer Identify", "why_tests_cant": "65536 allocation lengths times 257 requests times every identity; tests use lengths the answer fits in.", "anchors": ["lib/translator/inquiry.cc: InquiryToScsi, TranslateStandardInquiry, TranslateSupportedVpdPages, TranslateUnitSerialNumberVpd", "lib/translator/common.h: WriteValue", "third_party/e2e/scsi_mock_module.c: scsi_queuecommand"]}
{"id": "C120", "title": "REPORT LUNS discovers every unit, whatever the allocation length", "statement": "A REPORT LUNS with any allocation length of at least 8 is answered GOOD with the first LUNs of the device's active namespaces that fit, and a LUN LIST LENGTH telling the length of the whole list, so that an initiator whose buffer was too small asks again with enough room and discovers every unit.", "quantifier": "all allocation lengths, active namespace lists (0 to 1024 entries), scatterlists, memory layouts and devices that answer Identify", "why_tests_cant": "The truncation depends on the allocation length and the number of namespaces together; a test has a device with one or two.", "anchors": ["lib/translator/report_luns.cc: ReportLunsToNvme, ReportLunsToScsi, GetNsListLength", "third_party/e2e/scsi_mock_module.c: scsi_queuecommand"]}
{"id": "C121", "title": "READ CAPACITY(10) is right about every namespace", "statement": "Whatever the namespace's size and format, READ CAPACITY(10) through the adapter tells the initiator the address of its last logical block (FFFFFFFFh exactly if READ CAPACITY(16) is needed) and its block length in exactly eight bytes, using one Identify command and changing no other memory.", "quantifier": "all namespaces (every NSZE, format and LBADS), data buffer sizes, scatterlists, memory layouts and devices that answer Identify", "why_tests_cant": "Right and wrong answers meet at single values of NSZE and LBADS (0, FFFFFFFFh, 100000000h; 8, 9, 31, 32); a test samples a few namespaces.", "anchors": ["lib/translator/read_capacity_10.cc: ReadCapacity10ToNvme, ReadCapacity10ToScsi", "third_party/e2e/scsi_mock_module.c: scsi_queuecommand"]}
{"id": "C122", "title": "What a unit tells of itself is its own", "statement": "The answers to READ CAPACITY(10) and INQUIRY sent to a unit depend on this unit's namespace (and, for INQUIRY, the controller) alone: they are the same bytes whatever other units the device has, whatever was sent before, and whatever memory, buffers and adapter state they travel through; and different units are told apart.", "quantifier": "all pairs of devices agreeing on one unit, worlds, adapter states, buffers, scatterlists, allocation lengths, and all pairs of units", "why_tests_cant": "Independence relates two runs on different devices and histories; a test runs one.", "anchors": ["lib/translator/read_capacity_10.cc: ReadCapacity10ToNvme, ReadCapacity10ToScsi", "lib/translator/inquiry.cc: InquiryToNvme, InquiryToScsi", "third_party/e2e/scsi_mock_module.c: scsi_queuecommand"]}
