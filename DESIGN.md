# DRAMPower: formal model in Rocq (Coq 8.16.1)

The code under study is `/repo` (tukl-msd/DRAMPower, C++).  It is read as text;
nothing of it is built or run.  The model and the proofs are in `rocq/theories`.
The claims are in `properties.jsonl`, their theorems in `MANIFEST.json`.

## How the files are organised

* `*Model.v` (and `Base.v`, `Bits.v`, `Command.v`, `PatternTables.v`): the model,
  one definition per C++ function, each with the file and lines it is taken from.
* `*Spec.v`: what the properties talk about, written without the model's helpers:
  histories, a cycle-by-cycle device, waveforms on wires, lists of bits, charges,
  texts of trace files.
* `*Proofs.v`, `*Top.v`, `*Main.v`, `*Basics.v`, ...: lemmas.
* `*Examples.v`, `*Refuted.v`, `ExampleCores.v`: concrete cases and witnesses.
* `Prop*.v`: the property theorems and nothing else, each closed by one lemma,
  with `Print Assumptions` beneath and an `Example` that meets its hypotheses.

| model | code | specification |
|-------|------|---------------|
| `CoreModel` | `standards/*/*Core.{h,cpp}`, `dram/Rank`, `dram/Bank.h`, `util/ImplicitCommandHandler.h`, `util/RegisterHelper.h`, `util/cycle_stats.h` | `HistorySpec`, `DeviceSpec` |
| `RouterModel` | `util/Router.h` (a table no standard uses; the standards register their handlers as in `CoreModel`) | `RouterProofs` |
| `ChunkModel` | `cli/csv.hpp` for files of any size: chunks, `read_row`, `begin` | `ChunkSpec` |
| `ThreadModel` | `cli/csv.hpp`: `read_row` and the reading thread under every schedule | `ChunkSpec` |
| `BusModel` | `util/bus.h`, `util/burst_storage.h`, `util/pending_stats.h`, `util/clock.h`, `util/bus_types.h` | `WaveSpec` |
| `ToggleModel` | `dram/Interface.cpp` (TogglingHandle), `util/databus.h` | in `PropData`, `DataProofs` |
| `DbiModel`, `PinModel`, `DbiPinModel` | `util/dbi*.h`, `util/pin.h` and their use in the interfaces | `DbiSpec`, `PinSpec`, `DbiPinSpec` |
| `PatternModel`, `PatternTables` | `command/Pattern.*`, `util/PatternHandler.h`, `lpddr6/LPDDR6Pattern.*`, the `registerPatterns` of the five interfaces | `PatternSpec` |
| `FormatModel` | `lpddr6/LPDDR6Command.*`, `formatData` of `LPDDR6Interface` | `FormatSpec` |
| `InterfaceModel` | `standards/*/*Interface.{h,cpp}` | `InterfaceSpec`, `WireSpec`, `AmbleSpec` |
| `StatsModel`, `BitsetModel` | `data/stats.h`, `util/dynamic_bitset.h`, `util/sub_bitset.h` | `StatsSpec`, `BitsetSpec` |
| `EnergyModel`, `IfEnergyModel` | `standards/*/core_calculation_*`, `standards/*/interface_calculation_*`, `data/energy.*` | `EnergySpec`, `IfEnergySpec`, `ChargeSpec` |
| `RoundModel` | the same calculations, with every operation rounded | `RoundSpec` |
| `DramModel` | `dram/dram_base.h`, `standards/*/<STD>.{h,cpp}` | `DramSpec` |
| `SerialModel`, `ByteModel` | all `serialize`/`deserialize`; the latter on bytes | `SerialSpec`, `ByteSpec` |
| `CutModel`, `CutIfModel`, `CutDevModel` | all `deserialize`, from a stream that ends early | `CutSpec`, `CutIfSpec`, `CutDevSpec` |
| `ExtensionModel` | `util/extension*.{h,cpp}` | `ExtensionSpec` |
| `MemSpecModel` | `memspec/MemSpec*.{h,cpp}` | `MemSpecSpec` |
| `CsvModel`, `CliModel` | `src/cli/lib/DRAMPower/cli/{csv.hpp,run.*,util.*}` (the used part) | `CliSpec` |
| `OutputModel` | `src/cli/main/{main,validators}.cpp`, the file system as far as it is asked | `OutputSpec` |
| `ReportModel` | `src/cli/lib/DRAMPower/cli/run.cpp` 165-242, `util.hpp` formatters, `src/DRAMPower/DRAMPower/data/energy.cpp` to_json | `ReportSpec` |
| (composition) | the whole program | `ProgressSpec`, `WholeSpec` |

## Conventions of the model

* `uint64_t` is `N` with explicit wrap (`u64_add`, `u64_sub`, `u64_mul` reduce
  mod 2^64).  Narrower types are wrapped where they occur.
* `double` is the exact rational `Q` everywhere but in `RoundModel.v`, where the two energy
  calculations are repeated in the order of the code with an arithmetic that rounds every
  operation; C55 bounds the difference. Overflow, underflow, contraction of a product and a sum
  into one operation, and rounding in the memory descriptions and in the toggling estimate stay
  out of the model.
* Exceptions, failed `assert`s and undefined behaviour are distinct outcomes of
  the modelled functions (in the core `Throws`, `Asserts`, `Undefined`; elsewhere
  `Fails` with the reason).  A failed `assert` is an
  outcome, so the model is the debug build; the release build agrees on every
  input for which no assertion fails.
* `std::function` closures in the implicit-command queue are defunctionalised
  into an inductive type of implicit commands.
* Streams are lists of typed items, one item per `write` call; reading an item of
  another type is a failure.  `ByteModel` reads the same values from bytes, with
  the layout of the types as a parameter; a stream that is too short is a failure.
  `CutModel`, `CutIfModel` and `CutDevModel` say what a core, an interface and a whole
  device become when the stream breaks off between two values.
* Loops over containers are folds over lists; loops with a counter that the code
  bounds by a size are structural on that size.  The only loop with fuel is that of
  the CSV reader: one step per character, and running out of it is a failure.
* `unordered_map` traversal order is an arbitrary list of the settings; theorems
  that depend on it quantify over it.
* A pointer and a size of command data is an optional list of bytes; no bytes is
  the null pointer.

## Decisions that a reader should know

* **Reference device.** `DeviceSpec` steps one cycle at a time.  It follows the
  code in one questionable point: after an active power-down a bank counts as
  open *since the exit*, because the code restarts the interval (C08, C13).
* **Legal histories** (`legal`, `timely`): rules a controller keeps, stated on the
  reference device (which commands are allowed in which state, times do not go
  back, no command before the effect of the previous one has been applied).
  Where a property fails outside of them a refuted theorem shows it.
* **Word order on the bus.** The data bus plays the words of a payload from the
  last to the first.  The specification says so explicitly (`WireSpec`); it is
  taken as the code's convention, not proved right or wrong.
* **LPDDR6 pair flags** are decided the way the code does.
* **Undefined values.** The capacity of `vector<bool>` is an abstract growth
  function (`dg_grow`), the result of an over-wide shift in `formatData` is an
  oracle (`wild`); theorems hold for all of them.
* **DRAM objects.** When a call fails, the model drops the partly updated state of
  the interface; C34 speaks about the core half separately.
* **Memory descriptions.** The core, the interface and the two calculations each
  read their own view of a description; C52 proves that the views of one
  description agree.  The types of DRAMUtils are not in the repository: only
  the fields the code reads are modelled, and the numbering of the partial
  self-refresh modes is the order in the standard.
* **Extensions** are owned by the manager only (the weak pointers handed out are
  not followed further).
* **C53 `calm`** collects what excludes the refuted behaviours: windows that end
  after the last burst, seamless DDR4 bursts, DDR5 unterminated lines with
  toggling rates, odd rates.

## Trusted base

* Coq's kernel (coqc 8.16.1, also re-checked with `coqchk`).  `vm_compute` is
  used in proofs about finite tables and in examples; `coqchk` repeats them
  without the virtual machine.
* Axioms: every theorem of every `Prop*.v` file prints *Closed under the global
  context*.  `coqchk -o` lists seven constants `Coq.ssr.ssrunder.Under_rel.*`:
  they belong to a standard library module loaded with the tactics and no
  theorem uses them.
* That the model says what the C++ says.  Each definition cites its lines.  This
  was tested by seeded bugs (`seeded/LOG.jsonl`): wrong models make theorems
  fail.
* Not modelled:
  floating-point overflow and NaN; rounding only as the error bound of C55;
  what a read leaves behind when a stream breaks off inside a value;
  JSON reading and writing (DRAMUtils, nlohmann), config files and the option
  parser (CLI11; what `main` does with its outcome is modelled);
  file permissions, trailing slashes and other processes using the same files;
  how the CSV reader maps memory (but for mappings of no bytes, which fail), and what
  the C++ memory model makes of its unlocked reads: `ThreadModel` interleaves the two
  threads step by step;
  console warnings;
  allocation failure;
  copies of DRAM objects (the inversion callback captures `this`);
  `test_accessor.h`, the Python and benchmark code;
  the order in which `getTotalEnergy` evaluates its two operands (unspecified in
  C++; both have no effect on each other's result in the model).

## The properties

| id | title | status | file | how |
|----|-------|--------|------|-----|
| C01 | Command counters equal the commanded history | proved | PropHistory.v | induction over the history; spec is a counting filter (`HistorySpec`) |
| C02 | Lazy interval accounting equals a cycle-by-cycle reference | proved | PropDevice.v | refinement of the interval bookkeeping to a cycle-by-cycle machine without intervals or queue (`DeviceSpec`) |
| C03 | Every cycle is attributed to exactly one state | proved | PropDevice.v | corollary of C02; refuted outside the protocol |
| C04 | Querying statistics does not change results | proved | PropHistory.v | the drain loop splits at intermediate times |
| C05 | Implicit commands run in time order, FIFO on ties, each exactly once | proved | PropHistory.v | insertion keeps order and stability; draining is a prefix split |
| C06 | Ranks are independent in the core | proved | PropHistory.v | projection on one rank commutes with every step |
| C07 | Banks outside a command's footprint are untouched | proved | PropHistory.v | case analysis of `RegisterHelper` and the handlers |
| C08 | Auto-precharge equals an explicit precharge at the computed time | partial | PropDevice.v | reference machine; the literal reading refuted |
| C09 | Rank activity is the union of its banks' activity | proved | PropDevice.v, PropOutside.v | corollary of C02 |
| C10 | Each cycle counter is bounded by elapsed time and grows by at most one per cycle | partial | PropDevice.v, PropGrow.v, PropHistory.v | invariant on open intervals; growth refuted after power-down |
| C11 | Last command time is the latest executed time | proved | PropHistory.v, PropOutside.v | invariant over histories |
| C12 | Self-refresh and deep-sleep accounting | proved | PropDevice.v | corollary of C02 and closed form |
| C13 | Active power-down pauses and resumes exactly the active banks | partial | PropDevice.v | reference machine; refuted when something is in flight |
| C14 | Command bus statistics equal the transition count of the real waveform | proved | PropBus.v | refinement of `Bus`/`burst_storage` to an explicit waveform (`WaveSpec`) |
| C15 | Bus queries are pure and accounting is additive | proved | PropBus.v | from C14 |
| C16 | Toggling-rate estimation conserves bit time | proved | PropData.v | arithmetic over Q, floor bounds |
| C17 | Clock pins count every half period exactly once | proved | PropBus.v | invariant over start/stop |
| C18 | DBI transmits decodable data | proved | PropDbi.v | algebra per chunk, induction over bursts |
| C19 | Static DBI bounds the energy-consuming level | partial | PropDbi.v, PropDbiExact.v | as C18; refuted for chunks wider than a word |
| C20 | Dynamic DBI bounds toggling | partial | PropDbi.v, PropDbiExact.v | as C18; refuted for short and overlapping bursts |
| C21 | Command encoding places every address bit where the pattern says | proved | PropPattern.v | induction over descriptors |
| C22 | Distinct addresses give distinct command encodings | partial | PropPattern.v | injectivity from C21 plus complete checks of the tables |
| C23 | LPDDR6 burst formatting loses no information | proved | PropFormat.v | permutation of positions lifted to all data |
| C24 | Burst storage keeps every bit | proved | PropBus.v | index arithmetic |
| C25 | Energy is additive in the statistics | proved | PropEnergy.v | ring reasoning over Q |
| C26 | Core energy is non-negative and monotone under sane currents | proved | PropEnergy.v | order reasoning over Q |
| C27 | Energy layout: each rank/device/bank gets its own slot and devices are replicas | proved | PropEnergy.v | structure of the result |
| C28 | Total energy is the sum of its parts | proved | PropEnergy.v | sums over lists |
| C29 | Core serialization round trip | proved | PropSerial.v | simulation between writer and reader over typed streams |
| C30 | Interface serialization round trip | partial | PropSerialIf.v | as C29, all standards; refuted where fields are not written |
| C31 | Command names round trip | partial | PropStats.v | complete case analysis |
| C32 | Bit set behaves like a list of bits | partial | PropBitset.v, PropBitsetExact.v | refinement to `list bool` |
| C33 | Statistics addition is a commutative monoid | proved | PropStats.v | algebra mod 2^64 |
| C34 | Every accepted core command is accepted by the interface | partial | PropProgress.v | complete case analysis of both tables |
| C35 | DQS pre/postamble accounting | partial | PropAmble.v | induction over accesses |
| C36 | Interface energy is linear and respects disabled termination | partial | PropIfEnergy.v | ring and order reasoning, exact value modulo 2^64 |
| C37 | Command list parsing maps columns to the right coordinates | partial | PropCli.v, PropRow.v | induction over characters, inverse of a printer |
| C38 | DBI pin statistics equal the pin's waveform | partial | PropDbi.v | refinement of `Pin` to a waveform |
| C39 | Extension manager: one instance per type, lookups after registration | partial | PropExtension.v | association-list refinement |
| C40 | Data bus accounting follows the bus mode and direction | proved | PropData.v | frame lemmas, induction over operations |
| C41 | The background currents used are one function of the number of open banks | proved | PropEnergy.v | case analysis of the current tables |
| C42 | The energy model reproduces the data sheet's measurement loops | proved | PropEnergy.v | data sheet loops as histories |
| C43 | The command bus shows each command's own words and nothing else, whatever came before | proved | PropInterface.v | C14 and C21 along an interface run |
| C44 | Strobes and clocks run exactly during bursts, respectively while enabled | partial | PropInterface.v | C14 along an interface run, induction over bursts for the exact strobe count |
| C45 | The data bus carries each burst's own data, inverted as flagged, and nothing else | proved | PropWire.v | C14, C18 and C23 along an interface run |
| C46 | A DRAM object is its core and its interface side by side | proved | PropDram.v | simulation of the two halves |
| C47 | A hook reaches exactly the extensions that support it | proved | PropExtension.v | induction over hooks |
| C48 | A DRAM object survives being written and read back | partial | PropExtension.v | from C29, C30 and C39 |
| C49 | The program prints the energies of the trace | proved | PropCli.v | reading, running and printing composed |
| C50 | A trace that keeps to the rules is run to its end | proved | PropProgress.v | progress: an invariant that excludes every failure of core and interface |
| C51 | Core energy is voltage times the charge the device draws | proved | PropCharge.v | from C02: energy of the counters against a per-cycle charge (`ChargeSpec`) |
| C52 | The parts of a DRAM object take one consistent set of numbers from a memory description | proved | PropMemSpec.v | algebra on the constructors of the memory descriptions |
| C53 | The program prints the energy of the trace it is given | proved | PropWhole.v | composition of C37, C43-C45, C49-C52 |
| C54 | Core and interface agree on how long a burst lasts | partial | PropWhole.v | arithmetic on both burst lengths |
| C55 | Rounding to doubles moves the printed energies by a bounded amount | proved | PropRound.v | error relations composed operation by operation, induction over banks, devices, ranks and domains |
| C56 | Traces run one after another add up | proved | PropCompose.v | simulation between the device after the first trace and a new one, shifted in time |
| C57 | What a single command changes | proved | PropLocal.v | commands that leave the device unchanged drop out of its run |
| C58 | Ranks and banks are interchangeable | proved | PropRename.v | simulation between devices with permuted banks |
| C59 | The written reports hold every calculated energy and their numbers add up | proved | PropReport.v | explicit document, induction over the labelled banks; additivity of sums |
| C60 | What power-down saves | proved | PropSave.v | simulation between the trace with and without power-down |
| C61 | Interface counts and printed energies of traces run one after another add up | proved | PropJoin.v | waveforms of both traces split at the beat at rest, with C43 to C45, C53 and C56 |
| C62 | Upper and lower bounds on the power of the core | proved | PropBound.v | cycle-wise comparison of currents on top of C51; rows opened by activations bound the rows still open |
| C63 | Simultaneous commands to different banks commute | proved | PropOrder.v | exchange of two disjoint touches of a settled device, up to settling; induction over the exchanges; statistics and energy through the reference machine |
| C64 | A parameter matters only for the commands that use it | proved | PropParam.v | the reference machine depends on the description only through the listed parameters; induction over the trace |
| C65 | The check of the output path and the exit code | partial | PropOutput.v | induction over links and names of a path; a new file is seen only where it was put; refuted for relative links, circles and --help |
| C66 | Energies scale as their units demand and superpose | proved | PropScale.v | scaling of the closed form of C25 and C36 |
| C67 | Every statistic depends only on the parts of a command it is about | proved | PropIndep.v | lockstep of two runs: per part of the interface a view of the calls it reads; the core by its dispatch |
| C68 | Which commands a core takes and which breaches of protocol it notices | proved | PropReject.v | case analysis of the dispatch over the sizes invariant; the mode by the refinement of C02 |
| C69 | Exactly which traces an interface takes | proved | PropTaken.v | acceptance equals a declarative condition: necessity by induction over the trace with the exact end of the last burst on each bus, sufficiency from C50 |
| C70 | The bytes of a stream | proved | PropBytes.v | deserialize members as programs of typed read calls, run on items and on bytes; agreement of the two for every program; range invariant of the core |
| C71 | Exactly what the inversion lines are told and count | proved | PropLine.v | a pin keeps one open group of levels; invariant by induction on the levels told, then the calls of the inverter per line by induction on the interface calls |
| C72 | Exactly which calls an interface takes while data may be inverted | proved | PropInvert.v | the steps of C69 with an inverter that goes on as long as its lines take what they are told; the lines by C71; sufficiency and necessity by induction on the calls |
| C73 | How a trace ends | proved | PropEnd.v | what each step of the interface can fail with, put beside C69; the core by C68; the first refusal by induction on the trace |
| C74 | What is still to come after the last command | proved | PropSettle.v | an invariant on the times a bank remembers bounds the look-ahead; the queue part of the refinement relation gives its exact contents; power from the charge of C51, cycle by cycle |
| C75 | What waiting costs | proved | PropIdle.v | Waiting is the case of C61 with nothing to do afterwards: the waves of lines at rest are evaluated once for all widths and levels, estimated beats stop growing, and C74 gives the core. The program follows through C53. |
| C76 | The table of command handlers dispatches to the handler registered last | proved | PropRouter.v | Induction on the registrations: each entry holds the handler registered last for its type. |
| C77 | The size of the chunks in which a trace file is read does not matter | proved | PropChunk.v | The lexer on a chunk follows the lexer on the whole file until the last row that ends in the chunk, and the next chunk starts there; induction on what is left of the file. |
| C78 | Every schedule of the CSV reader's threads | proved | PropThread.v | An invariant of the two threads: the rows got, queued, in the hands of the reading thread and still to be read are the rows of the file, plus those of one thread too many started beyond the end; a lexicographic measure (threads to start, steps of the reading thread, steps of the main thread) for the end. |
| C79 | A core read from a stream that breaks off | proved | PropCut.v | a rule for two reads in sequence, with what the first leaves behind; the members determine the core |
| C80 | A device hears the command that was given | proved | PropDecode.v | decoders of the five truth tables, read pin by pin, composed with the exact placement of every bit (C21) |
| C81 | What was sent can be read off the wires | proved | PropArrive.v | the waveform of C45 sampled backwards, composed with the exact tellings of the inversion lines (C71) and the frame of C23; same-beat reading refuted |
| C82 | An interface read from a stream that breaks off | proved | PropCutIf.v | PropCutIf.v; each deserialize member is a sequence of reads with the value its variable held before, none for an uninitialised local. Induction over the members that are written; the DDR4 bound counts the reads before the third uninitialised length. |
| C83 | A whole device read from a stream that breaks off | proved | PropCutDev.v | PropCutDev.v; the reads of the extensions, then C79 for the core and C82 for the interface, over the reachable devices of ExtensionDevice. |
| C84 | A core or device read from the stream of another memory | proved | PropForeign.v | the readers of C29 and C79 between two memory specifications: a loop over the own ranks takes a prefix of what was written, or runs into the end of the stream |
| C85 | Precharges never outnumber the openings of a bank nor the precharges asked for | proved | PropPre.v | PreSpec says which commands open a bank and which precharge it; an invariant bounds the counter plus the open row by the openings, and the counter plus the queued auto-precharges by the precharges; that activations bound it in every history is refuted by a refresh cut short |

## What holds only in part, and what was found to be false

Notes of the claims that carry a restriction:

* **C08** (partial): holds with the time since which the row counts as open; after an active power-down that is the exit time, not the ACT time, so the literal statement fails (refuted witness)
* **C10** (partial): upper bounds hold for every history; growth by 0 or 1 holds for legal histories and fails for protocol-breaking ones (refuted witness); for every history, legal or not, each count stands still or grows by the time passed as long as no implicit command falls due (C10_*_stand_or_run)
* **C13** (partial): proved for legal histories; outside them closed banks can resume in all standards but DDR4 (refuted witnesses)
* **C14** (proved): Proved for every width, rate, idle level and non-overlapping sequence of loads of at least one full word, and for the bus after disable. Enabling a disabled bus counts idle beats from 0 again and a load shorter than one word breaks later queries: refuted with witnesses. The bus plays the words of a payload from the last to the first.
* **C16** (proved): Double arithmetic is modelled by exact rationals. The setter accepts values outside [0,1] (undefined conversion) and re-rates earlier bursts: refuted with witnesses.
* **C19** (partial): Proved for one entry per chunk (DDR4, LPDDR4, LPDDR5). False for two entries per chunk (LPDDR6), where the decision is taken too early: refuted witnesses. C19_static_exactly says, for any number of entries per chunk and any idle level, exactly which chunks are inverted and what is then on the wires.
* **C20** (partial): Proved for bursts of at least two beats in one direction. False for bursts of one beat and for overlapping directions: refuted witnesses. C20_dynamic_exactly says exactly which chunks are inverted in any series of equal bursts of both directions, including the cases the refutations show.
* **C22** (partial): Addresses: proved for every carried bit not hidden by a burst setting. Types: proved up to explicit classes of types that the tables encode alike; the classes and the lost address bits are refuted theorems.
* **C29** (proved): Proved for every configuration, every reachable serializable writer and reader and every continuation. The stream is a list of typed items, one per write call; C70 takes it to bytes. Both serializability conditions are shown necessary.
* **C30** (partial): Proved for every standard and every history of calls whose effect the stream keeps, with any traversal order of the settings map, against all later calls and queries. False in general: the data bus inversion state of LPDDR4, LPDDR5 and LPDDR6, the LPDDR6 metadata and enable state are not written, and DDR4 last beats above one are read back into a bool. C30_exactly says for every history what is read back instead. C30_meta_repaired: repeating the last metadata setting restores what was lost; C30_off_stuck: an interface written while switched off cannot be switched on again.
* **C31** (partial): Holds for every type except END_OF_SIMULATION (prints END_OF_SIMULATION, parses END) and COUNT; the failure is a refuted theorem.
* **C32** (partial): Proved for every history of constructors and mutators, all block sizes: size, count and [] equal the list; == is sound, and complete without set()/flip()/~. Refuted: after ~ two sets with the same bits compare unequal; indices beyond the size but inside the last block are accepted. sub_bitset is exact. What every operation does for any history, in range or not, spare bits included, is proved exactly (C32_dynamic_exactly, C32_dynamic_equality_exactly).
* **C34** (partial): False as stated: DDR5 has no pattern for the self-refresh exit, so doCommand throws with the core already updated. The tables of core and interface are given exactly; on the other standards every type the core takes is carried. Commands can still stop half way for their contents: a read without data while the wires are watched (all standards), a bank that is no multiple of four (LPDDR6).
* **C35** (partial): Proved for every execution: bursts of a rank and direction never overlap, and the seamless counters equal the number of gap-free successors (plus a first burst in cycle 0). Refuted of the code: merging is never counted, the energy calculation reads burst counts from rank counters that are always zero, so gapped bursts get no amble energy and seamless ones a huge wrapped one.
* **C36** (partial): Closed form, additivity, no static energy without termination, monotone: all standards except DDR5 in toggling mode with unterminated data lines, where it is refuted (the code passes R_eq as the flag). DDR4 pre/postambles need seamless <= bursts (amble_ok). What is charged without these conditions is proved exactly (C36_exact), and when there is a result at all (C36_finite).
* **C37** (partial): Proved: text written from commands is read back as exactly these commands, whatever blanks and line ends, and with fields in double quotes (commas, line ends and doubled quotes inside); numbers and payloads read exactly; what is accepted is described exactly up to the refuted cases. False of the code: unknown names become NOP, stray characters in a payload are accepted, timestamps from 2^63 end the program, blanks next to double quotes change the field. What is read from every row, and how the program ends on a row that is not read, is proved exactly (C37_row_exactly, C37_row_refused_exactly, C37_row_dies).
* **C38** (partial): Pin: proved for every sequence of bursts. Interface: proved when each burst followed by a gap ends in a beat without inversion; false otherwise (refuted witnesses), because the call that returns the pin to idle carries the time of the next burst.
* **C39** (partial): Lookups are exact for every sequence. Writing and reading matches extensions by order of registration, not by type: refuted with a witness; proved for the same order. A type registered twice makes serialize throw.
* **C42** (proved): Every loop, when bursts last a whole number of clock cycles (DDR reads: always); C42_write_loop_refuted shows the restriction is needed: DDR4/DDR5 E_WR divides integers where E_RD does not.
* **C43** (proved): For LPDDR6 with four bank groups, the only number its encoder assumes; commands with END_OF_SIMULATION and the LPDDR4 power-down commands drive nothing.
* **C44** (partial): For windows no burst reaches beyond and even data rates the strobes and clocks run exactly during the bursts. Refuted for a window that ends inside a burst and for a WCK ratio above the data rate (the integer quotient is 0 and WCK never moves). What is counted for any window and any overlap is proved as well: every burst commanded so far, in full.
* **C47** (proved): The wide, combined and replaced theorems show what happens outside the statement: hooks above 32 bits, several hooks in one call, a replaced extension.
* **C48** (partial): Proved for the uses whose effect the stream keeps. Inversion of the LPDDR standards and metadata are lost while the extension says otherwise: refuted with witnesses. C48_exactly says for every history what is read back instead.
* **C51** (proved): Energies are exact rationals. The charge is defined in ChargeSpec.v on the reference machine of DeviceSpec.v. C51_whole_run composes with C50 so that nothing is assumed of the run itself.
* **C52** (proved): Reading the description from JSON (DRAMUtils) is not modelled. Refuted: the group size of an unknown LPDDR5 layout is stale; 16 banks in no group divide by zero; partial self refresh modes are fractions for eight banks only.
* **C53** (proved): Composition of C37, C49, C50, C51, C52 and the counting theorems C43-C45: for every sound description and every rule-keeping trace the program prints voltage times charge and the line energies of the waveforms. Conditions that exclude refuted behaviour (DDR4 seamless bursts, DDR5 unterminated lines with toggling rates, odd clock rates, strobes in flight) are hypotheses in the record calm.
* **C54** (partial): Holds for DDR4, DDR5 and LPDDR4; for LPDDR5 and LPDDR6 the two times differ by the ratio of the clocks for every data rate, so the claim as stated is refuted there.
* **C55** (proved): The standard model of floating-point arithmetic without overflow and underflow; the input numbers of the descriptions are taken as they are. The bound is relative to the energy with subtracted currents added, not to the energy itself.
* **C56** (proved): C56_any_two_refuted shows that being at rest in between is needed: an open row carries over. At rest asks for refreshes to take at least as long as tRCD when a bank has been activated, because the library notes the time of a refresh as an activation time of banks that were activated before.
* **C59** (proved): All of the statement; the text report of LPDDR6 and the cumulated line do not add up (refuted with a witness). Text formatting of numbers and file writing are not modelled.
* **C65** (partial): False of the code for relative links in another directory (the file is created relative to the current directory), for links in circles (an exception leaves the check) and for --help (exit code 1); all else proved.
* **C71** (proved): The exact version of C38: no gap, order or size condition on the bursts; the times have to stay within 64 bits. The statistics are queried with the constant 2 as in the code, whatever the data rate.
* **C72** (proved): Equal burst sizes while the wires are watched, because the inverter keeps too short a list of flags when a later burst is larger but the capacity suffices (out of bounds). The claim that switching the inversion on loses no trace is refuted on DDR4.
* **C73** (proved): Exact outcome of any trace whose commands make sense by themselves; a command that wants a mode (self-refresh exit, deep sleep, DDR4 active power-down exit) is only predicted after a legal prefix.
* **C74** (proved): The bound on the number of queued implicit commands needs a legal history: C74_any_history_bounded_refuted shows that illegal ones, which the core executes too, fill the queue without limit.
* **C77** (proved): Proved under the conditions in the statement; each is shown to be needed by a refuted theorem, those about ends of lines and long rows for every chunk size. Each reading thread is done before the next chunk is asked for.
* **C80** (proved): The truth tables are written from the device side, by pin. Column bits inside a burst are left out, as the settings replace them. LPDDR6 with four bank groups; its parity bit is not read.
* **C81** (proved): Bits that do not fill a beat are not sent (C45); the lines rest at their idle level between bursts. Taking the flag from the same beat as the data is refuted.
* **C84** (proved): With several ranks of another number of banks each, values are read with other types than they were written with, which the model of values does not follow. The three refuted statements are not part of the property but record what a user might expect.

Theorems with a witness that the code does something else than one would claim
(`exists x, ...`):

* `C03_pending_auto_precharge_refuted` (PropDevice.v)
* `C04_last_command_time_refuted` (PropHistory.v)
* `C08_after_power_down_refuted` (PropDevice.v)
* `C09_exit_without_entry_refuted` (PropOutside.v)
* `C09_second_activate_refuted` (PropOutside.v)
* `C10_monotone_refuted` (PropHistory.v)
* `C11_interface_latest_refuted` (PropOutside.v)
* `C11_out_of_order_refuted` (PropOutside.v)
* `C13_closed_bank_resumes_refuted` (PropDevice.v)
* `C13_refreshed_bank_resumes_refuted` (PropDevice.v)
* `C14_late_enable_refuted` (PropBus.v)
* `C14_reenabled_bus_refuted` (PropBus.v)
* `C14_short_load_refuted` (PropBus.v)
* `C16_new_definition_is_retroactive_refuted` (PropData.v)
* `C16_unchecked_duty_refuted` (PropData.v)
* `C17_odd_rate_refuted` (PropBus.v)
* `C18_growing_burst_refuted` (PropDbi.v)
* `C19_subchunks_refuted` (PropDbi.v)
* `C19_subchunks_worse_refuted` (PropDbi.v)
* `C20_other_direction_refuted` (PropDbi.v)
* `C20_single_beat_refuted` (PropDbi.v)
* `C21_lpddr6_parity_refuted` (PropPattern.v)
* `C22_ddr4_types_refuted` (PropPattern.v)
* `C22_ddr5_types_refuted` (PropPattern.v)
* `C22_lpddr4_row_refuted` (PropPattern.v)
* `C22_lpddr5_refresh_bank_refuted` (PropPattern.v)
* `C22_lpddr5_refresh_group_refuted` (PropPattern.v)
* `C22_lpddr5_types_refuted` (PropPattern.v)
* `C22_lpddr6_types_refuted` (PropPattern.v)
* `C23_second_half_defined_refuted` (PropFormat.v)
* `C29_busy_reader_refuted` (PropSerial.v)
* `C29_pending_refuted` (PropSerial.v)
* `C30_ddr4_beat_refuted` (PropSerialIf.v)
* `C30_lpddr4_dbi_refuted` (PropSerialIf.v)
* `C30_lpddr5_dbi_refuted` (PropSerialIf.v)
* `C30_lpddr6_dbi_refuted` (PropSerialIf.v)
* `C30_lpddr6_disabled_refuted` (PropSerialIf.v)
* `C30_lpddr6_meta_refuted` (PropSerialIf.v)
* `C31_names_round_trip_refuted` (PropStats.v)
* `C32_dynamic_equality_refuted` (PropBitset.v)
* `C32_dynamic_range_refuted` (PropBitset.v)
* `C34_bank_refuted` (PropProgress.v)
* `C34_bare_read_refuted` (PropProgress.v)
* `C34_half_way_refuted` (PropProgress.v)
* `C35_ambles_charged_refuted` (PropAmble.v)
* `C35_first_burst_refuted` (PropAmble.v)
* `C35_merged_refuted` (PropAmble.v)
* `C35_never_negative_refuted` (PropAmble.v)
* `C36_ddr5_toggling_refuted` (PropIfEnergy.v)
* `C37_name_refuted` (PropCli.v)
* `C37_payload_refuted` (PropCli.v)
* `C37_quotes_refuted` (PropCli.v)
* `C37_timestamp_refuted` (PropCli.v)
* `C38_gap_after_inversion_counts_refuted` (PropDbi.v)
* `C38_gap_after_inversion_refuted` (PropDbi.v)
* `C38_query_rate_refuted` (PropDbi.v)
* `C38_set_rate_refuted` (PropDbi.v)
* `C39_by_type_refuted` (PropExtension.v)
* `C40_switch_back_refuted` (PropData.v)
* `C42_write_loop_refuted` (PropEnergy.v)
* `C44_strobe_in_flight_refuted` (PropInterface.v)
* `C44_wck_stands_still_refuted` (PropInterface.v)
* `C47_combined_refuted` (PropExtension.v)
* `C47_replaced_refuted` (PropExtension.v)
* `C48_dbi_refuted` (PropExtension.v)
* `C48_meta_refuted` (PropExtension.v)
* `C52_group_size_refuted` (PropMemSpec.v)
* `C52_groupless_refuted` (PropMemSpec.v)
* `C52_refreshed_half_refuted` (PropMemSpec.v)
* `C54_one_length_refuted` (PropWhole.v)
* `C56_any_two_refuted` (PropCompose.v)
* `C58_any_renumbering_refuted` (PropRename.v)
* `C59_lines_add_up_refuted` (PropReport.v)
* `C60_auto_precharge_refuted` (PropSave.v)
* `C61_estimates_refuted` (PropJoin.v)
* `C61_no_pause_refuted` (PropJoin.v)
* `C63_any_order_refuted` (PropOrder.v)
* `C65_circles_refuted` (PropOutput.v)
* `C65_given_refuted` (PropOutput.v)
* `C65_help_refuted` (PropOutput.v)
* `C68_every_breach_refuted` (PropReject.v)
* `C69_no_data_refuted` (PropTaken.v)
* `C72_any_burst_refuted` (PropInvert.v)
* `C72_two_sizes_refuted` (PropInvert.v)
* `C74_any_history_bounded_refuted` (PropSettle.v)
* `C77_doubled_refuted` (PropChunk.v)
* `C77_empty_refuted` (PropChunk.v)
* `C77_long_first_refuted` (PropChunk.v)
* `C77_long_later_refuted` (PropChunk.v)
* `C77_mark_refuted` (PropChunk.v)
* `C77_split_end_refuted` (PropChunk.v)
* `C78_lost_refuted` (PropThread.v)
* `C78_thrown_refuted` (PropThread.v)
* `C78_twice_refuted` (PropThread.v)
* `C79_active_unopened_refuted` (PropCut.v)
* `C79_empty_keeps_refuted` (PropCut.v)
* `C81_same_beat_refuted` (PropArrive.v)
* `C82_nothing_refuted` (PropCutIf.v)
* `C83_usable_refuted` (PropCutDev.v)
* `C84_all_kept_refuted` (PropForeign.v)
* `C84_device_noticed_refuted` (PropForeign.v)
* `C84_kind_noticed_refuted` (PropForeign.v)
* `C85_every_bank_refuted` (PropPre.v)

Seen while reading, not stated as theorems: `PatternHandler::serialize` leaves
out the last pattern (not observable); the LPDDR6 active power-down exit always
opens the rank's active interval; an ACT on an active bank restarts the
interval; SREFEN also counts as an all-bank refresh; REFDB with twice the same
bank counts it twice; the printed table of the program leaves out REF_DB.

## Seeded bugs

A script outside this directory copies `rocq`, edits one definition of the model
like a realistic mistake, and rebuilds; `seeded/LOG.jsonl` has one line for each
attempt: the definition, the edit, the claim it breaks, the theorems that failed
and, when a claim survived although it had become false, what was tightened.
