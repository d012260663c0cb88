# A Rocq model of googleinterns/scsi2nvme

## 1. What is modelled

The library (`lib/translator/*.cc`, `*.h`) translates SCSI CDBs to NVMe queue
entries (`Translation::Begin`) and NVMe completions back to SCSI data, status
and sense (`Translation::Complete`).  The model is an executable Gallina
re-statement of that code, function by function, over a byte-addressed memory.

| file | models |
|---|---|
| `Bytes.v` | bytes, little/big-endian numbers, bit ranges (library, with lemmas) |
| `Layout.v` | packed C++ structs as named bit-field layouts |
| `ScsiDefs.v`, `NvmeDefs.v` | `scsi.h`, `nvme.h`: opcodes, constants, struct layouts |
| `World.v` | memory, page-allocator callbacks, uninitialised storage, undefined behaviour |
| `Common.v` | `common.h`, `common.cc` |
| `ReadCmds.v`, `WriteCmds.v` | `read.cc`, `write.cc` |
| `SmallCmds.v` | `verify.cc`, `synchronize_cache.cc`, `request_sense.cc`, `maintenance_in.cc`, `read_capacity_10.cc`, `report_luns.cc` |
| `UnmapCmd.v`, `StatusCmd.v` | `unmap.cc`, `status.cc` |
| `ModeSenseCmd.v`, `InquiryCmd.v` | `mode_sense.cc`, `inquiry.cc` |
| `TranslationCls.v` | `translation.h`, `translation.cc` (including the missing `break`s) |
| `StrictCls.v` | the releasing functions of `translation.cc` again, over any release callback (for C84) |
| `EngineE2e.v` | `third_party/e2e/engine.cc` (ScsiToNvme), what `nvme_driver.c` does to the completion |
| `MockModule.v` | `third_party/e2e/scsi_mock_module.c`: `scsi_queuecommand` (buffer, copy, engine, residual) and its C++ glue |
| `KernelDriver.v` | `third_party/e2e/nvme_driver.c`: `nvme_submit_user_cmd`, `submit_admin_command`, `submit_io_command`, `nvme_driver_init` |
| `DebugLog.v` | `common.cc`: `DebugLog`, `ScsiOpcodeToString`; `util.c`: `Print`; the 94 places in `lib/translator` that log, with format and argument types |
| `HostTemplate.v` | `scsi_mock_module.c`: the abort handler |
| `ModuleLife.v` | `scsi_mock_module.c`: init, exit, probe, remove |

How:

* **State.** `world` = byte memory (`N -> option byte`, `None` = unmapped), the
  allocator as an arbitrary answer function of the request number, a trace of
  allocator calls, and arbitrary "junk" for uninitialised automatic storage.
* **Undefined behaviour** is a separate outcome `UB reason`: touching unmapped
  memory, indexing a span or array out of range, over-wide shifts, flowing off
  the end of a value-returning function.  Theorems of the form `= Ret ...` thus
  claim definedness.
* **Integers** are `N` with explicit wrap-around (`u8/u16/u32/u64`, `sub32`)
  where the C++ types wrap.
* **Structs** are little-endian numbers of their packed bytes; fields are bit
  ranges.  The host is little-endian, except in the byte-order helpers, which
  are modelled for both (C45).

Debug printing (`DebugLog`, `printk`) is modelled on its own (`DebugLog.v`, C93)
and left out of the other models.  Not modelled: the Linux block layer, SCSI
mid layer and driver core, which appear only through their documented effect
(arbitrary answers to each call, recorded in a trace); of `scsi_mock_module.c`
the host template's constants and `scsi_scan_host`; of
`nvme_driver.c` timeouts and request flags; the test programs and Bazel files;
threads beyond C86, C96 and C112 (there calls on different objects, and whole
`queuecommand` threads, interleave at every memory access, callback and
submission, sequentially consistent; one object is never used from two threads,
and callbacks and the execution of an NVMe command are atomic); addresses wrapping past 2^64
(memory addresses are unbounded `N`); use-after-free in the main
model (pages stay mapped after `DeallocPages`, lifetimes are stated on the
allocator trace; C84 covers it separately); strict aliasing and
alignment (all structs are packed).  `std::vector` allocation in `unmap.cc` and
`engine.cc` cannot fail.

## 2. Specification

The specification files hold what a reader needs to understand the theorems, and
none of the model's helpers:

| file | content |
|---|---|
| `Spec.v` | "memory holds these bytes", the 64-byte NVMe queue entry as a byte list, what an object exposes and holds, the allocator ledger, call histories (`reach`), status table, sense data |
| `RwSpec.v` | CDB fields of READ/WRITE/VERIFY as big-endian slices, PRINFO tables, acceptance conditions |
| `InquirySpec.v` | Identify data fields, the VPD pages and standard data as byte lists |
| `SmallSpec.v` | REPORT LUNS, READ CAPACITY, REQUEST SENSE, MAINTENANCE IN |
| `ModeSpec.v` | mode pages, headers, block descriptors |
| `UnmapSpec.v` | UNMAP parameter list and Dataset Management ranges |
| `HistorySpec.v` | equivalence of objects and of worlds up to uninitialised storage |
| `EngineSpec.v`, `MockSpec.v`, `KernelSpec.v` | submission records, adapter results, kernel resources |
| `CatalogSpec.v` | which NVMe command a SCSI opcode may lead to, and which memory it names |
| `ManySpec.v` | interleaved calls on several objects, honest allocators |
| `DiskSpec.v` | an abstract disk, an NVMe device that stores blocks, histories of READs and WRITEs |
| `MixedSpec.v` | the same disk with other commands in between |
| `DurableSpec.v` | a device with a volatile write cache, Flush, FUA and power failures |
| `LocalSpec.v` | worlds that agree on the memory a call was given |
| `ConcSpec.v` | calls as step-by-step programs and their interleavings |
| `UndefSpec.v` | when Complete is undefined, as a condition on CDB, buffer and Identify data |
| `ModuleSpec.v` | the disk seen through the complete kernel module, with the block layer refusing commands |
| `ModuleDurableSpec.v` | power failures seen through the complete kernel module |
| `ConcDiskSpec.v` | adapter threads as step-by-step programs, their interleavings with a shared medium, one-by-one executions |
| `LunSpec.v` | logical unit numbers as initiators read them |
| `AdvertSpec.v` | what a unit announces about itself (capacity, block length, limits, mode data, protection) and the commands that rely on it |
| `ConcAllSpec.v` | queued commands of every kind at once: what each thread needs, what a device may write to on its behalf, the same command alone |
| `SenseSpec.v` | what the initiator finds in the sense buffer after each outcome of a command |
| `CacheSpec.v` | MODE SENSE(6) through the adapter, a device with a volatile write cache feature, the WCE bit |
| `AcceptSpec.v` | which requests are accepted, as a decision function of CDB, data and page answers |

Property theorems are in `Properties*.v`, each closed by `exact` (or a short
application) of a lemma proved elsewhere, with `Print Assumptions` beneath and
an `Example`/witness that its hypotheses are met.

Where the faithful model violates a property, the theorem `Cxx_..._refuted`
gives a concrete execution violating it, and `Cxx_..._partial` (or an exact
characterisation) says what does hold.

## 3. Properties: what is modelled and how it is proved

All properties are expressible; none is `not_applicable`.  "Refuted" means that
the code as written violates the property: a theorem exhibits the violation, and
the partial theorem states what holds instead.

**Protocol and resources**

* C01, C02 Begin accepted iff idle; reusable afterwards: induction over `reach`,
  all histories of calls with arbitrary memory changes between them; the busy
  flag is computed from the responses only.
* C03 no leak, no double free: the ledger of the allocator trace is a permutation
  of what the object holds, by induction over the history.
* C04 at most three commands: invariant `wf`.
* C53 history independence: relational proof (`RelFacts.v`) that Begin and
  Complete give related results on objects that agree; refuted for the advertised
  buffer length and UNMAP.
* C38 exposed commands are those of the current CDB: by cases on the opcode;
  refuted for UNMAP.
* C50, C51 dependence on CDB memory and trailing bytes: two-run proofs; refuted
  where Complete rereads the CDB and where MODE SENSE(10) reads too far.
* C75 allocation failure: by cases on the opcode from the exact descriptions of
  each Begin; refuted for MODE SENSE(10).
* C76 several objects on one allocator: induction over interleavings, the shared
  ledger is a permutation of the concatenation of what all objects hold.
* C77 exact releases of each call: from the specifications of Complete and Abort.
* C82 page requests: the allocation events in the specification of Begin; the
  module callbacks on an arbitrary good heap.

* C83 locality: every call is made of the primitive effects (ProgFacts.v, one
  structural induction); each primitive has the frame property; combined with
  C11/C12, which show the calls defined when only their own memory is mapped.
* C84 no use after release: StrictCls.v repeats the releasing functions with the
  callback as a parameter (convertible to the model's for DeallocPages); with a
  callback that unmaps, two-run proof: all releases come after the last access.

**Failure reporting**

* C86 concurrent calls: ConcSpec.v defines schedules over programs made of atomic
  actions (one memory access, one callback, one stack frame) and gives each thread
  its own memory; proof by an invariant that relates every thread to a run of its
  own alone in a world with only its memory (`on_record`, ConcFacts.v), using that
  all calls are programs (ProgFacts.v) and defined alone (C12, C02).  Allocated
  pages are added to the thread's memory; a released page stays with the thread
  (C84 says it does not use it), so reuse of a page by another running call is
  not exercised.
* C05, C06, C07 rejected commands, wrong completion count, first failing
  completion: evaluation of Complete under each premise.
* C08 status table: an independent table, all 2048 (SCT, SC) pairs by a kernel
  computation lifted with `forallb_forall`.
* C09 sense format: refuted for the reserved bits (uninitialised).
* C44 a response that could not be produced is GOOD: refuted; partial.
* C52 zero-length transfers: refuted (CHECK CONDITION); partial.
* C74 which buffer was written, by status: framing proof for Complete.

**Safety**

* C10 frame; C11, C12 definedness: program logic in `Logic.v` (`tst`, `pst`,
  `cst`, `framed`, `confined`), applied to every function.  C12 refuted for MODE
  SENSE.
* C72, C75 for UNMAP, C51 for MODE SENSE(10), C23 and C60 in exact form:
  `Properties28.v`.
* C72, C73 which commands and which memory: `CatalogFacts.v`, by cases on the
  opcode over all CDBs but UNMAP.
* C78 uninitialised storage: `blind` (commutes with changing the junk), applied
  to every function; refuted for INQUIRY page 80h.

**Data path** (symbolic evaluation of the bit-field code to the 64 bytes)

* C13, C14, C15, C16 READ translation, acceptance, bounds.
* C17, C18, C19 WRITE; C18 (length) and C19 (buffer) refuted.
* C20 VERIFY (namespace refuted), C21 SYNCHRONIZE CACHE, C22 TEST UNIT READY,
  C23 LUN mapping (aliasing refuted).
* C79, C80 refinement of an abstract disk by Begin / device / Complete and by the
  adapter: one-step simulation (`stores` relates the device's medium to the
  abstract disk), then induction over histories; C81 read-your-writes and
  isolation, from the abstract histories.
* C85 mixed histories: the device of MixedSpec.v also answers the other commands
  in any way; from C72/C73/C16 every command exposed for another CDB writes main
  memory only, so the refinements of C79 and C80 extend to mixed histories.
* C87 power failures: DurableSpec.v has a reference disk with a volatile cache (for
  every block, the contents that may survive) and a device with non-volatile storage
  beside the contents of DiskSpec: it may save any block at any time, must save all of
  a namespace before it completes Flush and the blocks of a Write with FUA before it
  completes that; after a failure it holds what was saved; a write it is stopped in
  leaves every block old or new (blocks are atomic). That the device does this is the
  assumption; that the code asks it to, for the right namespace and blocks, is proved.
  `C87_power_failures` is the refinement, the other two theorems read it off for one
  block. The examples meet the premises and show that an unforced write can be lost.

**Responses** (Complete as a function of the 4096-byte Identify pages)

* C24-C33 INQUIRY and its VPD pages; C26-C31 partly refuted.
* C34, C35, C36, C43 MODE SENSE; C35 (WCE), C36 refuted.
* C88 exactly when Complete is undefined: UndefSpec.v gives the condition on CDB, page
  contents and buffer size; every accepted MODE SENSE is evaluated symbolically in all
  cases (`mode_back_total`), all other commands are defined by C12.
* C89 exactly which requests are accepted: AcceptSpec.v gives a decision function of CDB,
  parameter list, buffer length and the answers to page requests, read off per opcode; the
  proof goes through every opcode of Begin, with the fallthroughs of UNMAP and MODE SENSE(10).
* C37 UNMAP refuted through the API (missing `break`), including an UNMAP that
  becomes Set Features; the translation function itself is proved.
* C39 REPORT LUNS: loop invariant over the namespace list; refuted for short
  buffers.  C40 READ CAPACITY refuted (NSZE instead of NSZE-1).
* C41 REQUEST SENSE, C42 MAINTENANCE IN (refuted: sent as Identify).

**Helpers**: C45 byte order on both endiannesses, C46 spans: algebra on byte lists.

**Engine, adapter, driver, module** (the kernel answers arbitrarily)

* C47, C48, C49, C54 engine: submissions, pages, bounds, errors; C48, C54 refuted.
* C55-C61 adapter: C56 READ, C57 WRITE, C61 no-data commands end to end; C59
  delivery and residual; C55, C58, C60 refuted for large or refused commands.
* C90 exactly which pages engine and adapter fail to free: from C89 and the ledger; it
  sharpens C48 and C58.
* C91 the outcome of every request as a function of CDB, data length, page answers and
  completions (`verdict`): C89, the announced length (AnnounceFacts.v, by opcode) and an
  inversion of Complete, carried through engine and adapter.
* C62-C64 REPORT LUNS, INQUIRY, READ CAPACITY end to end: from the per-command
  theorems through engine and adapter.
* C65-C67 driver glue: every run of `nvme_submit_user_cmd` by cases on the block
  layer's answers.
* C92 the complete module (adapter, engine, library, driver, block layer) as a disk: the
  step lemma of C80 for a driver that serves one command, and for one that loses it;
  exact for every state of the block layer; refuted beyond the capacity, where it answers
  GOOD.
* C93 debug messages: `printf` for the directives used, undefined when the type of an
  argument is not the directive's; by induction on the format, with `matches` checked
  once for every call site, each message is defined for all argument values, shorter than
  the 1024-byte buffer and free of `%`.  Two call sites pass an argument of the wrong type.
* C94 the module's answer to every command: C91's outcome with completions that are always
  zero, and a proof that two runs with different kernels and devices give the same answer.
* C95 power failures through the module: each history of the module is turned, step by step,
  into a history of C87's device in which the commands the block layer refused or the device
  failed are left out; counterexamples for commands answered GOOD but refused.
* C96 concurrent queuecommand threads: C86's step-by-step programs, extended with the
  adapter's own actions and with submissions that change memory both threads share (the
  medium).  Invariant: each thread's part of memory is what it would be had the thread run
  alone from some disk contents, before its submission from any, after it from the contents
  at that moment; so the order of the submissions is the linearization.  Progress and
  termination by induction on the thread's remaining program.
* C97 abort handler: on C96's interleavings; refuted by running the aborted thread on alone.
* C98 REPORT LUNS entries read as SAM LUNs (`LunSpec.v`): all of them are multiples of 2^32,
  so with C23's exact NSID they all address namespace 1.
* C99, C100 capacity and block length announced against what READ and WRITE do
  (`AdvertSpec.v`): the announcement from C31's round trip carried through the adapter, then
  C77's disk behaviour; block length by the exact acceptance theorems C15, C18.
* C101-C105 other announcements (transfer limit, UNMAP, DPOFUA/D_SENSE, block descriptor,
  PROTECT) joined with the exact theorem about the command concerned; counterexamples where
  the two disagree.
* C106 MODE SENSE(6) through the adapter: `Begin_mode6`/`mode_complete6` around the device run,
  as for C63.  C107 the WCE bit it announces against C87's histories: where it is wrong every
  unforced write of every history can be followed by a power failure that loses it.
* C108 REQUEST SENSE and C110 VERIFY(10) through the adapter, from C41 and from C20 with C91.
  C109 two runs of `Begin` side by side, from the exact theorems C13-C17.  Their small
  specifications (`asks_sense`, `same_transfer`, `asks_verify`) open Properties38-40.
* C111 the adapter comes to an end: induction over the primitive effects of a call (what it
  allocates is mapped afterwards), C12, and the scatterlist copies.
  MODE SENSE (Properties42): Complete's definedness is read off C88_undefined_iff with the page
  the device has left in the page held, which is the only one acquired in the trace.
* C112 any commands at once: C96's replay argument, with a device made up from the completions
  and the memory seen so far; a thread's next step is defined because alone, with that device,
  it comes to its end (C111).  Memory is split into the threads' parts, which grow by what the
  allocators hand out.
* C113 the page ledger of commands queued at once: by induction on the interleaving the ledger
  of the shared trace is, up to order, the concatenation of the ledgers of the single
  threads; each of these is a prefix of the ledger of the same thread replayed alone (C112),
  which C58 and the run invariant keep in order. Partial for the reasons of C111 and
  C58_leak_refuted.
* C114 status and sense data of every command through the adapter: the frame of Begin, the
  device and the scatterlist copies leaves the sense buffer to Complete, whose two error
  exits and one successful exit are exact (StatusFacts, C74).
* C116 identification: the answers of C63 for pages 80h and 83h are compared for any two units,
  adapters and memories; injectivity of the renderings (C29_distinct) and determinacy of each page
  (C29_unit_serial_exact, C30) give difference and recognition; specification opens Properties48 (asks, answers);
* C117 own outcome among others: the invariant of C112 carries, for each thread, a solitary run with a
  device of fixed completions (`gen_outcome`; also in the MODE SENSE instance);
  C91's exact outcome is transferred to it once the solitary completions are identified with the
  thread's (`returned_subs`: the result lists exactly what was handed over, shown by marking the last hand-over);
* C118 (Properties52): every NVMe command of the engine and of the adapter is one its operation code may be carried out with (CatalogSpec), naming its own LUN's namespace, buffer and pages (`C118_engine`, `C118_adapter`); under any schedule, by replaying each thread alone with an allocator that gives nothing from the present moment on (`admissible_drained`), the same of what any thread has handed over so far.
* C119 INQUIRY at every allocation length: for each page the exact bytes written into a span of any
  length (whole, header or nothing), carried through Complete and the adapter as in C63.
* C120 unit discovery: the translator's truncated list (C39) through the adapter; the initiator's
  reading of the data (list length, listed LUNs) is decoded from the bytes by a separate definition.
* C121 READ CAPACITY(10) of every namespace: the translator's answer and its failure (C40) through the
  adapter (C64), read back as the initiator does; right exactly for the namespaces C121_right_iff names.
* C122 independence of units: two runs of the adapter on devices that agree on one unit, each
  determined exactly (C119, C121), give the same bytes; aliasing LUNs refute that units are told apart.
* C115 stack contents: the whole adapter is run from two worlds that differ in the junk only;
  C78 for the answer GOOD, the exact error exits of Complete otherwise, and the scatterlist
  copies from memories that agree outside the sense data.
  For INQUIRY page 80h the page is followed from the stack bytes present when Begin is called:
  filled with two different values it differs in character 16 of a half with at most 14 digits,
  so the units whose page is constant are named exactly.
* C68-C71 module life cycle: every combination of failing registrations.

The per-property status and theorem names are in `MANIFEST.json`; wrong programs
the theorems were tried on are in `seeded/LOG.jsonl`.

## 4. Trusted base

* Coq 8.16.1's kernel (and `vm_compute`, which the kernel uses).
* `Print Assumptions` of every property theorem: *Closed under the global
  context* - no axioms, not even of the standard library.  (`coqchk` on the whole
  development also lists the `Coq.ssr.ssrunder.Under_rel` fields, which come with
  the standard library's `ssreflect` files and are used by no theorem here.)
* The reading of /repo that the model is; each definition cites its lines.
* `tools/check_layouts.py` recomputes every field offset from `scsi.h` and `nvme.h`
  and compares it with `ScsiDefs.v`/`NvmeDefs.v` (a test, not part of the proof).
* `tools/check_tables.py` compares the model's layouts, enumerators, status tables,
  opcode names and log formats with the text of /repo (a test, no proof depends on it).
* The packed-struct layout rule of `Layout.v`, and the GCC/Clang little-endian
  bit-field allocation order.
* For C54, C66, C67: that nothing in the repository but the (absent) block-layer
  completion writes the completion entry - a reading of `nvme_driver.c`.
* For C65-C71: the kernel services behave as documented (`blk_mq_alloc_request`,
  `blk_rq_map_kern`, `blk_execute_rq`, `bus_register`, `scsi_host_alloc`, ...);
  the model lets each succeed or fail arbitrarily.
