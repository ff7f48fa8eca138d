{"id": "C01", "title": "Command counters equal the commanded history", "statement": "After any history of core commands the per-bank ACT/RD/RDA/WR/WRA and refresh counters reported by getWindowStats equal (modulo 2^64) the number of commands in the history that address that bank (or, for REFA/REFSB/REFP2B/REFDB, whose footprint contains the bank); no other bank's counters move.", "quantifier": "every standard, every memspec, every command history (legal or not) that the core accepts, every query time", "why_tests_cant": "A test fixes one trace; the claim is about every interleaving of commands, ranks, banks and queries, including counter wrap.", "anchors": ["src/DRAMPower/DRAMPower/standards/ddr4/DDR4Core.cpp:doCommand", "src/DRAMPower/DRAMPower/standards/ddr5/DDR5Core.cpp:doCommand", "src/DRAMPower/DRAMPower/standards/lpddr4/LPDDR4Core.cpp:doCommand", "src/DRAMPower/DRAMPower/standards/lpddr5/LPDDR5Core.cpp:doCommand", "src/DRAMPower/DRAMPower/standards/lpddr6/LPDDR6Core.cpp:doCommand"]}
{"id": "C02", "title": "Lazy interval accounting equals a cycle-by-cycle reference", "statement": "For every protocol-legal history, the act / power-down / self-refresh / deep-sleep cycle counts that getWindowStats(t) reports for each bank and rank equal the counts obtained by ticking a reference DRAM state machine one clock cycle at a time up to t.", "quantifier": "every standard, every timing parameter set, every protocol-legal history, every query time at or after the last command", "why_tests_cant": "The code keeps open/closed intervals and a lazily drained queue; only an inductive argument covers every relative placement of command times, implicit events and queries.", "anchors": ["src/DRAMPower/DRAMPower/standards/ddr4/DDR4Core.cpp:getWindowStats", "src/DRAMPower/DRAMPower/standards/ddr5/DDR5Core.cpp:getWindowStats", "src/DRAMPower/DRAMPower/standards/lpddr4/LPDDR4Core.cpp:getWindowStats", "src/DRAMPower/DRAMPower/standards/lpddr5/LPDDR5Core.cpp:getWindowStats", "src/DRAMPower/DRAMPower/standards/lpddr6/LPDDR6Core.cpp:getWindowStats", "src/DRAMPower/DRAMPower/util/cycle_stats.h:interval_counter", "src/DRAMPower/DRAMPower/util/ImplicitCommandHandler.h"]}
{"id": "C03", "title": "Every cycle is attributed to exactly one state", "statement": "For every protocol-legal history act + pre + powerDownAct + powerDownPre + selfRefresh (+ deepSleepMode) equals the simulated time for each bank and each rank, and the unsigned subtraction that computes `pre` never wraps.", "quantifier": "every standard, every protocol-legal history, every query time", "why_tests_cant": "Overlap of two intervals for some timing/trace combination would wrap an unsigned subtraction to about 2^64; a sampled trace that does not overlap shows nothing.", "anchors": ["src/DRAMPower/DRAMPower/standards/ddr4/DDR4Core.cpp:getWindowStats", "src/DRAMPower/DRAMPower/standards/ddr5/DDR5Core.cpp:getWindowStats", "src/DRAMPower/DRAMPower/standards/lpddr4/LPDDR4Core.cpp:getWindowStats", "src/DRAMPower/DRAMPower/standards/lpddr5/LPDDR5Core.cpp:getWindowStats", "src/DRAMPower/DRAMPower/standards/lpddr6/LPDDR6Core.cpp:getWindowStats"]}
{"id": "C04", "title": "Querying statistics does not change results", "statement": "Calling getWindowStats any number of times between commands, at any time not later than the next command, leaves every later getWindowStats result unchanged, and repeating a query returns the same value.", "quantifier": "every standard, every history with non-decreasing times, every insertion of queries", "why_tests_cant": "getWindowStats mutates the object (drains the implicit queue); non-interference must hold for every placement of every query.", "anchors": ["src/DRAMPower/DRAMPower/standards/ddr4/DDR4Core.cpp:getWindowStats", "src/DRAMPower/DRAMPower/standards/ddr5/DDR5Core.cpp:getWindowStats", "src/DRAMPower/DRAMPower/standards/lpddr4/LPDDR4Core.cpp:getWindowStats", "src/DRAMPower/DRAMPower/standards/lpddr5/LPDDR5Core.cpp:getWindowStats", "src/DRAMPower/DRAMPower/standards/lpddr6/LPDDR6Core.cpp:getWindowStats", "src/DRAMPower/DRAMPower/util/ImplicitCommandHandler.h:processImplicitCommandQueue"]}
{"id": "C05", "title": "Implicit commands run in time order, FIFO on ties, each exactly once", "statement": "Implicit commands (auto-precharge, refresh end, delayed power-down/self-refresh) execute in non-decreasing timestamp order, those with equal timestamps in the order they were scheduled, each exactly once, and draining up to t executes exactly those due at or before t.", "quantifier": "every sequence of schedule and drain operations", "why_tests_cant": "Ordering bugs appear only for particular tie patterns and interleavings of insertion and draining.", "anchors": ["src/DRAMPower/DRAMPower/util/ImplicitCommandHandler.h:addImplicitCommand", "src/DRAMPower/DRAMPower/util/ImplicitCommandHandler.h:processImplicitCommandQueue"]}
{"id": "C06", "title": "Ranks are independent in the core", "statement": "The statistics of a rank depend only on the commands addressed to that rank: erasing all commands to other ranks from any history leaves this rank's statistics unchanged.", "quantifier": "every standard, every history with non-decreasing timestamps, every rank", "why_tests_cant": "All ranks share one implicit queue; independence has to hold for all interleavings.", "anchors": ["src/DRAMPower/DRAMPower/standards/ddr4/DDR4Core.cpp:doCommand", "src/DRAMPower/DRAMPower/standards/ddr5/DDR5Core.cpp:doCommand", "src/DRAMPower/DRAMPower/standards/lpddr4/LPDDR4Core.cpp:doCommand", "src/DRAMPower/DRAMPower/standards/lpddr5/LPDDR5Core.cpp:doCommand", "src/DRAMPower/DRAMPower/standards/lpddr6/LPDDR6Core.cpp:doCommand", "src/DRAMPower/DRAMPower/util/RegisterHelper.h"]}
{"id": "C07", "title": "Banks outside a command's footprint are untouched", "statement": "A command's immediate effect never changes any field of a bank outside its footprint (its addressed bank; the same-index bank of each group for PRESB/REFSB; bank and bank+offset for REFP2B; bank and dual bank for REFDB; all banks of the rank for rank commands), nor any other rank.", "quantifier": "every standard, every state, every command", "why_tests_cant": "Needs all states and all addresses, including the modular footprint arithmetic.", "anchors": ["src/DRAMPower/DRAMPower/standards/ddr5/DDR5Core.cpp:handlePreSameBank", "src/DRAMPower/DRAMPower/standards/lpddr5/LPDDR5Core.cpp:handleRefPerTwoBanks", "src/DRAMPower/DRAMPower/standards/lpddr6/LPDDR6Core.cpp:handleRefDualBanks", "src/DRAMPower/DRAMPower/util/RegisterHelper.h"]}
{"id": "C08", "title": "Auto-precharge equals an explicit precharge at the computed time", "statement": "RDA/WRA at t has the same effect on all cycle statistics as RD/WR at t followed by an explicit PRE at max(activation + tRAS, t + offset), provided nothing touches the bank in between; only the read/readAuto counters differ.", "quantifier": "every standard, every reachable state, every t, every later query", "why_tests_cant": "Requires equality of all later observations, for all timings and for other commands interleaved before the precharge fires.", "anchors": ["src/DRAMPower/DRAMPower/standards/ddr4/DDR4Core.cpp:handleReadAuto", "src/DRAMPower/DRAMPower/standards/ddr5/DDR5Core.cpp:handleReadAuto", "src/DRAMPower/DRAMPower/standards/lpddr4/LPDDR4Core.cpp:handleReadAuto", "src/DRAMPower/DRAMPower/standards/lpddr5/LPDDR5Core.cpp:handleReadAuto", "src/DRAMPower/DRAMPower/standards/lpddr6/LPDDR6Core.cpp:handleReadAuto", "src/DRAMPower/DRAMPower/standards/ddr4/DDR4Core.cpp:handleWriteAuto", "src/DRAMPower/DRAMPower/standards/ddr5/DDR5Core.cpp:handleWriteAuto", "src/DRAMPower/DRAMPower/standards/lpddr4/LPDDR4Core.cpp:handleWriteAuto", "src/DRAMPower/DRAMPower/standards/lpddr5/LPDDR5Core.cpp:handleWriteAuto", "src/DRAMPower/DRAMPower/standards/lpddr6/LPDDR6Core.cpp:handleWriteAuto"]}
{"id": "C09", "title": "Rank activity is the union of its banks' activity", "statement": "For every protocol-legal history a rank's active cycles equal the number of cycles in which at least one of its banks is active; hence max over banks <= rank act <= sum over banks. Refuted outside of legal histories: a second ACT on an open bank, and on LPDDR6 a power-down exit without an entry, make the rank more active than its banks.", "quantifier": "every standard, every protocol-legal history, every query time", "why_tests_cant": "The rank interval is opened and closed by side conditions on other banks' states; the claim is about every overlap pattern.", "anchors": ["src/DRAMPower/DRAMPower/dram/Rank.cpp:isActive", "src/DRAMPower/DRAMPower/standards/ddr4/DDR4Core.cpp:handlePre", "src/DRAMPower/DRAMPower/standards/ddr5/DDR5Core.cpp:handlePre", "src/DRAMPower/DRAMPower/standards/lpddr4/LPDDR4Core.cpp:handlePre", "src/DRAMPower/DRAMPower/standards/lpddr5/LPDDR5Core.cpp:handlePre", "src/DRAMPower/DRAMPower/standards/lpddr6/LPDDR6Core.cpp:handlePre"]}
{"id": "C10", "title": "Each cycle counter is bounded by elapsed time and grows by at most one per cycle", "statement": "For every history with non-decreasing timestamps (legal or not), each of a bank's/rank's act, powerDownAct, powerDownPre, selfRefresh-interval and deepSleep counts at time t is at most t, and advancing the query time by one cycle with no new commands increases it by 0 or 1.", "quantifier": "every standard, every history with non-decreasing timestamps, every query time", "why_tests_cant": "A stale interval start would make a counter jump; must be excluded for all histories.", "anchors": ["src/DRAMPower/DRAMPower/util/cycle_stats.h:interval_counter", "src/DRAMPower/DRAMPower/standards/ddr4/DDR4Core.cpp:getWindowStats", "src/DRAMPower/DRAMPower/standards/ddr5/DDR5Core.cpp:getWindowStats", "src/DRAMPower/DRAMPower/standards/lpddr4/LPDDR4Core.cpp:getWindowStats", "src/DRAMPower/DRAMPower/standards/lpddr5/LPDDR5Core.cpp:getWindowStats", "src/DRAMPower/DRAMPower/standards/lpddr6/LPDDR6Core.cpp:getWindowStats"]}
{"id": "C11", "title": "Last command time is the latest executed time", "statement": "After any history with non-decreasing timestamps, the core's getLastCommandTime equals the maximum over executed command timestamps and executed implicit-command timestamps, and never decreases. The interface keeps the time of the command (or switch on/off) it was given last, in whatever order. Refuted without the order of times: a late command with an early time takes both times back.", "quantifier": "every standard, every history, every query", "why_tests_cant": "The drain loop assigns (not maxes) the time; correctness relies on queue order for all histories.", "anchors": ["src/DRAMPower/DRAMPower/standards/ddr4/DDR4Core.cpp:getLastCommandTime", "src/DRAMPower/DRAMPower/standards/ddr5/DDR5Core.cpp:getLastCommandTime", "src/DRAMPower/DRAMPower/standards/lpddr4/LPDDR4Core.cpp:getLastCommandTime", "src/DRAMPower/DRAMPower/standards/lpddr5/LPDDR5Core.cpp:getLastCommandTime", "src/DRAMPower/DRAMPower/standards/lpddr6/LPDDR6Core.cpp:getLastCommandTime", "src/DRAMPower/DRAMPower/util/ImplicitCommandHandler.h:processImplicitCommandQueue"]}
{"id": "C12", "title": "Self-refresh and deep-sleep accounting", "statement": "A self-refresh entered at t and left at u >= t + tRFC contributes tRFC active cycles to every bank and exactly u - (t + tRFC) self-refresh cycles; a deep-sleep phase inside it is reported as deepSleepMode and the reported selfRefresh plus deepSleepMode equals the whole stay, without wrap.", "quantifier": "every standard with self-refresh, every t, u, tRFC, any deep-sleep nesting, any prior legal history", "why_tests_cant": "Quantifies over all times and prior histories.", "anchors": ["src/DRAMPower/DRAMPower/standards/ddr4/DDR4Core.cpp:handleSelfRefreshEntry", "src/DRAMPower/DRAMPower/standards/ddr5/DDR5Core.cpp:handleSelfRefreshEntry", "src/DRAMPower/DRAMPower/standards/lpddr4/LPDDR4Core.cpp:handleSelfRefreshEntry", "src/DRAMPower/DRAMPower/standards/lpddr5/LPDDR5Core.cpp:handleSelfRefreshEntry", "src/DRAMPower/DRAMPower/standards/lpddr6/LPDDR6Core.cpp:handleSelfRefreshEntry", "src/DRAMPower/DRAMPower/standards/lpddr5/LPDDR5Core.cpp:handleDSMEntry"]}
{"id": "C13", "title": "Active power-down pauses and resumes exactly the active banks", "statement": "Entering active power-down stops the active count of every active bank, leaving it resumes exactly the banks that were active at entry and no others.", "quantifier": "every standard, every history in which power-down is entered, including refresh or auto-precharge still in flight", "why_tests_cant": "The code identifies the banks by comparing interval end times, so coincidences of timestamps matter; tests hit them only by accident.", "anchors": ["src/DRAMPower/DRAMPower/standards/ddr4/DDR4Core.cpp:handlePowerDownActExit", "src/DRAMPower/DRAMPower/standards/ddr5/DDR5Core.cpp:handlePowerDownActExit", "src/DRAMPower/DRAMPower/standards/lpddr4/LPDDR4Core.cpp:handlePowerDownActExit", "src/DRAMPower/DRAMPower/standards/lpddr5/LPDDR5Core.cpp:handlePowerDownActExit", "src/DRAMPower/DRAMPower/standards/lpddr6/LPDDR6Core.cpp:handlePowerDownActExit"]}
{"id": "C14", "title": "Command bus statistics equal the transition count of the real waveform", "statement": "For every sequence of patterns loaded at non-overlapping times the ones/zeroes/transition counts reported at time t equal those obtained by writing out the bus level in every beat from 0 to t (idle level when nothing is driven) and counting levels and level changes.", "quantifier": "every bus width, data rate, idle pattern, every non-overlapping sequence of loads, every query time", "why_tests_cant": "The implementation accounts lazily with pending statistics and idle gaps; all gap/adjacency/query placements must agree.", "anchors": ["src/DRAMPower/DRAMPower/util/bus.h:Bus", "src/DRAMPower/DRAMPower/util/burst_storage.h", "src/DRAMPower/DRAMPower/util/pending_stats.h"]}
{"id": "C15", "title": "Bus queries are pure and accounting is additive", "statement": "Reading bus statistics never changes later statistics and the statistics are monotone in the query time.", "quantifier": "every bus state, every query time", "why_tests_cant": "All query placements.", "anchors": ["src/DRAMPower/DRAMPower/util/bus.h:get_stats"]}
{"id": "C16", "title": "Toggling-rate estimation conserves bit time", "statement": "With toggling-rate mode the counted ones plus zeroes equal the number of driven beats times the width up to rounding of one beat each, and 0->1 and 1->0 counts are equal, both bounded by half of the driven beats.", "quantifier": "every width, data rate, duty cycle and toggling rate in [0,1], every load history", "why_tests_cant": "Quantifies over real parameters and histories; truncation error must be bounded everywhere.", "anchors": ["src/DRAMPower/DRAMPower/dram/Interface.cpp:TogglingHandle::get_stats"]}
{"id": "C17", "title": "Clock pins count every half period exactly once", "statement": "For every alternation of start/stop the clock's ones, zeroes and edge counts at t are equal and each equal the number of running cycles up to t times half the data rate.", "quantifier": "every start/stop history with strictly increasing times, every query time", "why_tests_cant": "All histories.", "anchors": ["src/DRAMPower/DRAMPower/util/clock.h:Clock"]}
{"id": "C18", "title": "DBI transmits decodable data", "statement": "For every data word and line state, undoing the inversion announced on the DBI line recovers the original data bit for bit.", "quantifier": "every burst width, every data, every previous line state, both static and dynamic algorithms", "why_tests_cant": "All data words, widths and histories.", "anchors": ["src/DRAMPower/DRAMPower/util/dbi.h:updateDBI", "src/DRAMPower/DRAMPower/util/dbialgos.h"]}
{"id": "C19", "title": "Static DBI bounds the energy-consuming level", "statement": "After static DBI inversion no chunk has more than half of its bits at the non-idle (energy-consuming) level, so the transmitted burst never has more consuming bits than the original.", "quantifier": "every chunk width, every data word, both idle patterns", "why_tests_cant": "All data words.", "anchors": ["src/DRAMPower/DRAMPower/util/dbialgos.h:StaticDBI"]}
{"id": "C20", "title": "Dynamic DBI bounds toggling", "statement": "With the dynamic algorithm and threshold k, the number of lines toggling between consecutive chunks on the wire never exceeds max(k, width - k - 1).", "quantifier": "every width, threshold and data history", "why_tests_cant": "All data histories.", "anchors": ["src/DRAMPower/DRAMPower/util/dbialgos.h:DynamicDBI"]}
{"id": "C21", "title": "Command encoding places every address bit where the pattern says", "statement": "For every registered pattern and coordinate, bit size-1-i of the encoded command equals the value demanded by descriptor i (address bit, fixed level, configured override, or last transmitted bit for hold).", "quantifier": "every pattern, every coordinate, every override setting, every previous bus value", "why_tests_cant": "2^64 coordinates times patterns; needs proof by structure.", "anchors": ["src/DRAMPower/DRAMPower/command/Pattern.cpp:encode", "src/DRAMPower/DRAMPower/command/Pattern.h"]}
{"id": "C22", "title": "Distinct addresses give distinct command encodings", "statement": "Two commands of the same type whose bank/bank-group/row/column (as far as the command carries them) differ are encoded differently, and different command types are distinguishable.", "quantifier": "every standard, every pair of in-range coordinates", "why_tests_cant": "Quadratic in the address space.", "anchors": ["src/DRAMPower/DRAMPower/standards/*/..Interface.cpp:registerPatterns"]}
{"id": "C23", "title": "LPDDR6 burst formatting loses no information", "statement": "The LPDDR6 data formatter places every data bit, metadata bit and DBI bit at exactly one position of the transmitted burst; different (data, metadata, DBI) give different bursts and the positions follow the data bit map.", "quantifier": "every 256-bit data word, every metadata and DBI value, both burst halves", "why_tests_cant": "2^288 inputs.", "anchors": ["src/DRAMPower/DRAMPower/standards/lpddr6/LPDDR6Interface.cpp:formatData", "src/DRAMPower/DRAMPower/standards/lpddr6/LPDDR6Interface.h:dataBitMapping"]}
{"id": "C24", "title": "Burst storage keeps every bit", "statement": "Data inserted into burst storage can be read back: bit k of the payload is line k mod width of beat k / width, for every width and length.", "quantifier": "every width, every payload, every insertion offset", "why_tests_cant": "All widths and payloads.", "anchors": ["src/DRAMPower/DRAMPower/util/burst_storage.h:insert_data"]}
{"id": "C25", "title": "Energy is additive in the statistics", "statement": "The core energy computed from the sum of two window statistics equals the sum of the two energies, component by component (over exact arithmetic), and zero statistics give zero energy.", "quantifier": "every standard, every memspec, every pair of statistics", "why_tests_cant": "All inputs; formulas mix per-bank and rank-wide terms.", "anchors": ["src/DRAMPower/DRAMPower/standards/*/core_calculation_*.cpp:calcEnergy"]}
{"id": "C26", "title": "Core energy is non-negative and monotone under sane currents", "statement": "If voltages and periods are non-negative and each active current is at least its background current, every energy component is non-negative and increasing any statistic never decreases the total.", "quantifier": "every standard, every memspec satisfying the datasheet ordering, every statistics", "why_tests_cant": "All real parameters.", "anchors": ["src/DRAMPower/DRAMPower/standards/*/core_calculation_*.cpp:calcEnergy"]}
{"id": "C27", "title": "Energy layout: each rank/device/bank gets its own slot and devices are replicas", "statement": "Energy slot rank*devices*banks + device*banks + bank is computed only from that rank's and bank's statistics; slots of different (rank, device, bank) are distinct and within range; all devices of a rank carry equal energy.", "quantifier": "every rank/device/bank count and index", "why_tests_cant": "All index combinations.", "anchors": ["src/DRAMPower/DRAMPower/standards/*/core_calculation_*.cpp:calcEnergy", "src/cli/lib/DRAMPower/cli/run.cpp:jsonFileResult"]}
{"id": "C28", "title": "Total energy is the sum of its parts", "statement": "energy_t::total equals the sum over all banks of each component plus the shared background, power-down, self-refresh, deep-sleep and all-bank-refresh terms, each counted exactly once.", "quantifier": "every energy record", "why_tests_cant": "All inputs.", "anchors": ["src/DRAMPower/DRAMPower/data/energy.cpp"]}
{"id": "C29", "title": "Core serialization round trip", "statement": "If isSerializable holds, serializing the core and deserializing into a core of the same configuration yields a core whose every later response (statistics, last command time) equals the original's for every continuation.", "quantifier": "every reachable state with no pending implicit command, every continuation", "why_tests_cant": "All states and all continuations; also the raw byte layout of optional fields.", "anchors": ["src/DRAMPower/DRAMPower/standards/ddr4/DDR4Core.cpp:serialize", "src/DRAMPower/DRAMPower/standards/ddr5/DDR5Core.cpp:serialize", "src/DRAMPower/DRAMPower/standards/lpddr4/LPDDR4Core.cpp:serialize", "src/DRAMPower/DRAMPower/standards/lpddr5/LPDDR5Core.cpp:serialize", "src/DRAMPower/DRAMPower/standards/lpddr6/LPDDR6Core.cpp:serialize", "src/DRAMPower/DRAMPower/dram/Rank.cpp:serialize", "src/DRAMPower/DRAMPower/dram/Bank.h:serialize", "src/DRAMPower/DRAMPower/util/cycle_stats.h:serialize"]}
{"id": "C30", "title": "Interface serialization round trip", "statement": "Serializing and deserializing the interface preserves all later interface statistics for every continuation.", "quantifier": "every standard, every reachable interface state, every continuation", "why_tests_cant": "All states; a field missing from the stream shows only for specific later inputs.", "anchors": ["src/DRAMPower/DRAMPower/standards/*/..Interface.cpp:serialize", "src/DRAMPower/DRAMPower/util/bus.h:serialize", "src/DRAMPower/DRAMPower/util/dbi.h:serialize", "src/DRAMPower/DRAMPower/util/PatternHandler.h:serialize"]}
{"id": "C31", "title": "Command names round trip", "statement": "Parsing the printed name of any command type returns that type.", "quantifier": "every command type", "why_tests_cant": "Finite, but the property is checked nowhere; included because the CLI relies on it.", "anchors": ["src/DRAMPower/DRAMPower/command/CmdType.h:from_string", "src/DRAMPower/DRAMPower/command/CmdType.h:to_string"]}
{"id": "C32", "title": "Bit set behaves like a list of bits", "statement": "dynamic_bitset operations (set, reset, flip, push, and/or/xor, not, count, ==) agree with the corresponding operations on a list of booleans for every size.", "quantifier": "every size and content", "why_tests_cant": "All sizes including multiples of the block size.", "anchors": ["src/DRAMPower/DRAMPower/util/dynamic_bitset.h"]}
{"id": "C33", "title": "Statistics addition is a commutative monoid", "statement": "operator+= on simulation statistics is associative and commutative with the zero record as unit (modulo 2^64 per counter).", "quantifier": "all statistics", "why_tests_cant": "All values including wrap.", "anchors": ["src/DRAMPower/DRAMPower/data/stats.h"]}
{"id": "C34", "title": "Every accepted core command is accepted by the interface", "statement": "A command type that the core of a standard handles is also handled by the interface of the same standard, so doCommand never throws half way through with the core already updated.", "quantifier": "every standard, every command type the standard handles", "why_tests_cant": "Needs the cross product of command tables; a half-applied command corrupts later statistics.", "anchors": ["src/DRAMPower/DRAMPower/dram/dram_base.h:doCommand", "src/DRAMPower/DRAMPower/standards/*/..Interface.cpp:registerPatterns"]}
{"id": "C35", "title": "DQS pre/postamble accounting", "statement": "DDR4: for every sequence of reads and writes, bursts that follow each other without a gap are counted as seamless, bursts whose pre/postambles overlap as merged with the overlapping time, others neither; and the resulting pre/postamble time is never negative.", "quantifier": "every sequence of read and write times, every pre/postamble length", "why_tests_cant": "All gap sizes between bursts, plus the unsigned subtraction in the energy formula.", "anchors": ["src/DRAMPower/DRAMPower/standards/ddr4/DDR4Interface.cpp:handlePrePostamble", "src/DRAMPower/DRAMPower/standards/ddr4/interface_calculation_DDR4.cpp:calcDQSEnergy"]}
{"id": "C36", "title": "Interface energy is linear and respects disabled termination", "statement": "Interface energies are linear in the transition statistics, and when termination is disabled no static energy is charged.", "quantifier": "every standard, every impedance spec, every statistics", "why_tests_cant": "All parameters.", "anchors": ["src/DRAMPower/DRAMPower/standards/*/interface_calculation_*.cpp"]}
{"id": "C37", "title": "Command list parsing maps columns to the right coordinates", "statement": "A command line with enough columns is parsed into the command with exactly the given timestamp, type, coordinates and payload; a malformed line is rejected and never silently changed into another command; hexadecimal payload parsing is the inverse of printing.", "quantifier": "every command list line, every payload", "why_tests_cant": "All inputs.", "anchors": ["src/cli/lib/DRAMPower/cli/run.cpp:parse_command_list", "src/cli/lib/DRAMPower/cli/util.cpp:hexStringToUint8Array"]}
{"id": "C38", "title": "DBI pin statistics equal the pin's waveform", "statement": "The DBI pin's transition statistics equal those of the level sequence implied by the inversion decisions, idle level between bursts.", "quantifier": "every sequence of bursts, every query time", "why_tests_cant": "All gap patterns.", "anchors": ["src/DRAMPower/DRAMPower/util/pin.h:Pin"]}
{"id": "C39", "title": "Extension manager: one instance per type, lookups after registration", "statement": "After registering an extension of a type, lookups for that type return it and lookups for other types are unaffected; serializing and deserializing matches extensions by type.", "quantifier": "every sequence of registrations and lookups", "why_tests_cant": "All sequences.", "anchors": ["src/DRAMPower/DRAMPower/util/extension_manager.h", "src/DRAMPower/DRAMPower/util/extension_manager_static.h"]}
{"id": "C40", "title": "Data bus accounting follows the bus mode and direction", "statement": "Reads only change read statistics and writes only write statistics; each beat of a burst is accounted to exactly one direction; switching between bus and toggling-rate mode never double counts.", "quantifier": "every sequence of reads, writes and mode switches", "why_tests_cant": "All interleavings.", "anchors": ["src/DRAMPower/DRAMPower/util/databus.h:DataBus"]}
{"id": "C41", "title": "The background currents used are one function of the number of open banks", "statement": "For every memory specification there is exactly one background current that is affine in the number of open banks, equals the data sheet's active standby current at the number of banks it is measured at, and lies rho of the way from precharge standby to all banks open when no bank is open; the currents the energy formulas use for zero, one, two, one bank per group and all open banks are the values of that function.", "quantifier": "every standard, every memspec with non-zero divisors, every voltage domain", "why_tests_cant": "All real parameters; the code spells out each value with a different formula.", "anchors": ["src/DRAMPower/DRAMPower/standards/*/core_calculation_*.cpp:calcEnergy"]}
{"id": "C42", "title": "The energy model reproduces the data sheet's measurement loops", "statement": "When the statistics are those of the loop a data sheet current is measured with (activate-precharge, standby, power-down, self-refresh, deep sleep, back-to-back reads or writes whose bursts last whole clock cycles, all-bank, same-bank, per-bank, two-bank and dual-bank refresh), the total core energy is voltage times that current times the duration of the loop, summed over voltage domains, ranks and devices.", "quantifier": "every standard, every memspec with non-zero divisors, every loop count", "why_tests_cant": "All real parameters and all loop lengths.", "anchors": ["src/DRAMPower/DRAMPower/standards/*/core_calculation_*.cpp:calcEnergy"]}
{"id": "C43", "title": "The command bus shows each command's own words and nothing else, whatever came before", "statement": "After any sequence of API calls that all return, the stretches driven onto the command bus are, for every non-silent command, the words its pattern demands for its own address, burst length and direction (independently of every earlier command); no two stretches overlap; and the command bus statistics up to any cycle no command follows equal those of the waveform of these words with the standard's idle level in between.", "quantifier": "every standard, every memspec, every finite sequence of commands, DBI switches, metadata, parity, enable and disable calls, every query cycle", "why_tests_cant": "The encoder keeps overrides and a last pattern across commands; the claim is that no history of calls leaks into a later command's words.", "anchors": ["src/DRAMPower/DRAMPower/standards/*/*Interface.cpp:doCommand", "src/DRAMPower/DRAMPower/standards/*/*Interface.cpp:handleOverrides", "src/DRAMPower/DRAMPower/command/Pattern.h", "src/DRAMPower/DRAMPower/util/PatternHandler.h"]}
{"id": "C44", "title": "Strobes and clocks run exactly during bursts, respectively while enabled", "statement": "After any sequence of API calls that all return, with bursts of a direction in order and over by the query, read and write strobe statistics are those of lines toggling exactly in the cycles of the bursts; WCK runs always or exactly in the cycles of the bursts; the command clock runs in every cycle in which the interface is enabled.", "quantifier": "every standard, every memspec, every finite sequence of calls, every query cycle", "why_tests_cant": "Unbounded sequences; the tests query a few hand-made ones.", "anchors": ["src/DRAMPower/DRAMPower/standards/*/*Interface.cpp:handleDQs", "src/DRAMPower/DRAMPower/standards/*/*Interface.cpp:getWindowStats", "src/DRAMPower/DRAMPower/standards/lpddr6/LPDDR6Interface.cpp:enable"]}
{"id": "C45", "title": "The data bus carries each burst's own data, inverted as flagged, and nothing else", "statement": "After any sequence of API calls that all return: with real data, the stretches driven onto the data lines of a direction are, for every read (write) with data, its bytes, inverted exactly where the inversion rule flags them if DBI is on at that moment, for LPDDR6 in the frame with flags and the metadata set last; no two stretches of a direction overlap; the read and write bus statistics up to any cycle no command follows equal those of that waveform with the standard's idle level in between; the toggling statistics are zero. With toggling rates, the bus statistics are zero and the toggling statistics are the estimate for exactly the beats that belong to a burst.", "quantifier": "every standard, every memspec, every finite sequence of commands, DBI switches, metadata, parity, enable and disable calls, every query cycle", "why_tests_cant": "All data, all interleavings of settings and bursts; DBI and formatter keep state between bursts and the claim is that none of it leaks.", "anchors": ["src/DRAMPower/DRAMPower/standards/*/*Interface.cpp:doCommand", "src/DRAMPower/DRAMPower/standards/*/*Interface.cpp:getWindowStats", "src/DRAMPower/DRAMPower/util/databus.h", "src/DRAMPower/DRAMPower/util/dbi.h"]}
{"id": "C46", "title": "A DRAM object is its core and its interface side by side", "statement": "For every sequence of doCommand, doCoreCommand, doInterfaceCommand, extension calls and statistics queries that all return, the statistics of the DRAM object are those a core alone produces from the core's commands without any query and an interface alone produces from the interface's calls; the core energy depends only on the former and the interface energy only on the latter; a query can be repeated with the same answer; the total energy is the sum of both energies of one set of statistics.", "quantifier": "every standard, every memspec with consistent sizes, every finite sequence of calls with nondecreasing core times, every query cycle", "why_tests_cant": "All interleavings of calls and queries; core and interface fill different fields of one shared statistics object.", "anchors": ["src/DRAMPower/DRAMPower/dram/dram_base.h", "src/DRAMPower/DRAMPower/standards/*/*.h", "src/DRAMPower/DRAMPower/standards/*/*Core.cpp:getWindowStats", "src/DRAMPower/DRAMPower/standards/*/*Interface.cpp:getWindowStats"]}
{"id": "C47", "title": "A hook reaches exactly the extensions that support it", "statement": "With hook sets of at most 32 bits, calling a hook on the dynamic extension manager applies the functor to exactly the registered extensions that support this hook, in the order of registration; a call with no hook reaches none, one with several hooks is served by the lowest of them; the static manager reaches the same extensions for every single hook.", "quantifier": "every sequence of registrations with every set of supported hooks, every hook, every width up to 32 bits", "why_tests_cant": "All sequences of registrations, all masks; the shift in the hook cache changes its meaning at bit 31 and is undefined from bit 32.", "anchors": ["src/DRAMPower/DRAMPower/util/extension_manager.h:ExtensionManagerWithHooks", "src/DRAMPower/DRAMPower/util/extension_manager_static.h:callHook"]}
{"id": "C48", "title": "A DRAM object survives being written and read back", "statement": "A DRAM object (extensions, core and interface) written to a stream after any sequence of commands, queries and extension calls, with no implicit command pending, and read into a newly constructed object of the same configuration, consumes the whole stream and answers every later sequence of commands, queries and extension calls exactly as the original does.", "quantifier": "every standard, every memspec, every sequence of uses before the checkpoint and after it, every traversal order of the pattern settings map", "why_tests_cant": "All sequences before and after the checkpoint.", "anchors": ["src/DRAMPower/DRAMPower/dram/dram_base.h:serialize", "src/DRAMPower/DRAMPower/standards/*/*.cpp:serialize_impl", "src/DRAMPower/DRAMPower/util/extensions.cpp"]}
{"id": "C49", "title": "The program prints the energies of the trace", "statement": "The command line program prints energies exactly when a core alone and an interface alone can run the commands of the trace; both printed energies then come from one set of statistics, taken at the timestamp of the last command, the total is their sum, and every entry of the per-bank array is labelled with the rank, device and bank it belongs to.", "quantifier": "every trace text that parses, with timestamps in order, every memory description", "why_tests_cant": "All traces and all sizes of the array; that the first query does not move the time of the second is an invariant of the queue.", "anchors": ["src/cli/lib/DRAMPower/cli/run.cpp:makeResult", "src/cli/lib/DRAMPower/cli/run.cpp:jsonFileResult", "src/cli/main/main.cpp:main"]}
{"id": "C50", "title": "A trace that keeps to the rules is run to its end", "statement": "An object given a history that breaks no rule of the device, in which every command is of a type the interface carries, every burst takes at least one cycle and comes with as many bytes as announced, and neither the command bus nor either data bus is asked for two things at once, takes every command and answers every query that is not before the preceding command; no assertion fails, nothing is thrown and no undefined behaviour is met.", "quantifier": "every standard, every memory description the constructor accepts, every such history of commands and queries, real data and estimated data (data bus inversion off)", "why_tests_cant": "All histories; every assertion of core, buses, clocks, pins and encoder along the way.", "anchors": ["src/DRAMPower/DRAMPower/dram/dram_base.h:doCommand", "src/DRAMPower/DRAMPower/standards/*/*Interface.cpp:doCommand", "src/DRAMPower/DRAMPower/util/bus.h:load", "src/DRAMPower/DRAMPower/util/clock.h"]}
{"id": "C51", "title": "Core energy is voltage times the charge the device draws", "statement": "For every history that keeps to the rules of the device, the core energy at any later time is the sum over voltage domains, ranks and devices of voltage times charge, where the charge is a standby current for every clock cycle, chosen by the state the rank is in during that cycle, plus a fixed data sheet amount for every command, less the closing part of rows still open; the precharge counter of a bank is its number of activations less one while a row is open.", "quantifier": "every standard, every memory description in which core and energy view agree, every legal history of commands, every later time", "why_tests_cant": "All histories and times; relates per-cycle states of a reference machine to closed energy formulas over counters and interval sums.", "anchors": ["src/DRAMPower/DRAMPower/standards/*/core_calculation_*.cpp:calcEnergy", "src/DRAMPower/DRAMPower/standards/*/*Core.cpp:getWindowStats"]}
{"id": "C52", "title": "The parts of a DRAM object take one consistent set of numbers from a memory description", "statement": "Constructing a memory description stops only in a division by zero or, for LPDDR4, when partial self refresh leaves out more banks than there are. Core, interface and both energy calculations take exactly the numbers of the description, refresh times and refresh currents of the same refresh mode, and agree where they take the same thing. The precharge offsets are those of the standard. For every sound description the whole object can be constructed and meets the preconditions of the theorems about its parts. Rows, columns, command and data bus rates and partial self refresh reach none of the parts.", "quantifier": "every standard, every description (all field values, up to 2^60 banks), every toggling configuration", "why_tests_cant": "Tests use a handful of description files; this is over all field values including those that overflow or divide by zero.", "anchors": ["src/DRAMPower/DRAMPower/memspec/MemSpec.h", "src/DRAMPower/DRAMPower/memspec/MemSpec*.cpp", "src/DRAMPower/DRAMPower/standards/*/*Core.h", "src/DRAMPower/DRAMPower/standards/*/*Interface.h"]}
{"id": "C53", "title": "The program prints the energy of the trace it is given", "statement": "For every sound memory description and every trace, given as CSV text, that keeps to the rules of the device and of the buses, the command line program constructs every part, runs the trace to its end and prints: for the core, voltage times the charge the device draws cycle by cycle; for either side of the interface, V^2/R for the time the terminated lines it drives spend at the burning level plus an energy for every rising edge, where the levels are those of the waveforms the commands call for (or the shares given by the toggling rates); and as total the sum of both.", "quantifier": "every standard, every sound description, every toggling configuration with fractions for rates, every such trace (inversion off, bursts in order and over at the end, even strobe and WCK rates, counts below 2^64; DDR4 without seamless bursts, whose ambles are counted wrongly)", "why_tests_cant": "End to end over all descriptions and all traces; a test compares the totals of a few recorded traces.", "anchors": ["src/cli/main/main.cpp:main", "src/cli/lib/DRAMPower/cli/run.cpp", "src/DRAMPower/DRAMPower/dram/dram_base.h", "src/DRAMPower/DRAMPower/standards/*"]}
{"id": "C54", "title": "Core and interface agree on how long a burst lasts", "statement": "A full burst keeps the strobes of the interface running for as many clock cycles as the core reckons between the command and the precharge, and for the time the core energy calculation charges for it.", "quantifier": "every standard, every sound description, every command with a full burst", "why_tests_cant": "A relation between two calculations over all descriptions; holds with one clock and fails for every data rate with two.", "anchors": ["src/DRAMPower/DRAMPower/memspec/MemSpecLPDDR5.cpp", "src/DRAMPower/DRAMPower/memspec/MemSpecLPDDR6.cpp", "src/DRAMPower/DRAMPower/standards/lpddr5/LPDDR5Interface.cpp", "src/DRAMPower/DRAMPower/standards/lpddr5/core_calculation_LPDDR5.cpp"]}
{"id": "C55", "title": "Rounding to doubles moves the printed energies by a bounded amount", "statement": "When every addition, subtraction, multiplication, division and conversion of a counter rounds with a relative error of at most u, the core energy is calculated whenever the exact one is, and its total differs from the exact total by at most 2nu times the energy that results when the currents subtracted are added instead, where n = 48 + domains (ranks + 1) + banks ranks devices. Each number of the interface energy is within 42u and its total within 48u of the exact one, relatively. Rounding to the nearest number of 53 significant bits meets this with u = 2^-53.", "quantifier": "every standard, every description without negative numbers, all counters, every arithmetic that rounds with a relative error of at most u (no overflow or underflow)", "why_tests_cant": "Tests compare doubles with a tolerance for a few traces; this bounds the error for all counter values and descriptions.", "anchors": ["src/DRAMPower/DRAMPower/standards/*/core_calculation_*.cpp", "src/DRAMPower/DRAMPower/standards/*/interface_calculation_*.cpp", "src/DRAMPower/DRAMPower/data/energy.cpp", "src/DRAMPower/DRAMPower/dram/dram_base.h:getTotalEnergy"]}
{"id": "C56", "title": "Traces run one after another add up", "statement": "When nothing is under way in any rank at the end of a trace, running a second trace after it, delayed by the length of the first, is accepted whenever both are, and the times of every rank and bank, all counters and the total core energy at the end are the sums of those of the two traces run alone. Delaying a trace adds precharge standby time and energy only, and a trace run n times takes n times the energy.", "quantifier": "every standard, all pairs of legal histories of any length, all lengths, all repetition counts", "why_tests_cant": "A relation between different runs of unbounded length; state left over in the core that is missed by resets or time arithmetic shows only in particular combinations.", "anchors": ["src/DRAMPower/DRAMPower/standards/*/*Core.cpp", "src/DRAMPower/DRAMPower/util/ImplicitCommandHandler.h", "src/DRAMPower/DRAMPower/dram/Rank.cpp", "src/DRAMPower/DRAMPower/util/cycle_stats.h"]}
{"id": "C57", "title": "What a single command changes", "statement": "The core depends on the time, kind, rank and banks of commands only, from any state. In a legal trace a read or write without auto-precharge, a precharge of closed banks, a NOP or the end marker can be left out: all times of ranks and banks and all other counters stay the same, a read or write counts once for its bank, and the total core energy changes by the charge of that command times voltage and devices. Reads and writes may be added wherever the rank is up and the row open. Traces that give each rank the same commands in the same order are indistinguishable.", "quantifier": "every standard, all legal traces, all positions in the trace, all added commands", "why_tests_cant": "A relation between two runs for any prefix and suffix; hidden dependence on order, data or addresses shows only for particular pairs.", "anchors": ["src/DRAMPower/DRAMPower/standards/*/*Core.cpp", "src/DRAMPower/DRAMPower/command/Command.h", "src/DRAMPower/DRAMPower/standards/*/core_calculation_*.cpp"]}
{"id": "C58", "title": "Ranks and banks are interchangeable", "statement": "Renumbering the ranks and the banks in all commands of a legal trace, by any renumbering under which the commands address the renamed banks, gives a legal trace; the times and counters of every rank and bank are those of the rank and bank it was renamed from, and the total core energy is the same. Commands that name the banks they address allow every renumbering; in DDR5 every renumbering that keeps indices inside bank groups will do.", "quantifier": "every standard, all legal traces, all renumberings of ranks and banks", "why_tests_cant": "Quantifies over all permutations and traces; an index slip for one bank or rank number only shows for that number.", "anchors": ["src/DRAMPower/DRAMPower/standards/*/*Core.cpp", "src/DRAMPower/DRAMPower/dram/Rank.cpp", "src/DRAMPower/DRAMPower/standards/*/core_calculation_*.cpp"]}
{"id": "C59", "title": "The written reports hold every calculated energy and their numbers add up", "statement": "For every standard, memory description and statistics for which the energies are numbers, the JSON document of the command line program exists, contains the counts, the total, the fifteen energies of every bank under the right rank, device and bank labels, the six shared energies and the four interface energies under their names, and all energies in it (except the total and the two precharge energies contained in others) sum to the total it states. The text report has one line per bank and its bank, shared and interface numbers sum to the printed total for every standard except LPDDR6, where the dual bank refresh energy is left out; the cumulated line together with the shared line counts the shared background energy twice.", "quantifier": "all memory descriptions, statistics, numbers of ranks, devices and banks, and interface energies", "why_tests_cant": "A test compares a file for one memory; the label arithmetic and the sums range over all sizes and all energies.", "anchors": ["src/cli/lib/DRAMPower/cli/run.cpp:165", "src/cli/lib/DRAMPower/cli/run.cpp:213", "src/cli/lib/DRAMPower/cli/util.hpp:19", "src/DRAMPower/DRAMPower/data/energy.cpp:28"]}
{"id": "C60", "title": "What power-down saves", "statement": "Remove every entry to and exit from power-down from a legal trace. If no access with auto-precharge is held up by a row clock that active power-down restarted, the remaining trace is legal too; every command counter is the same; active power-down cycles turn into active cycles, precharge power-down cycles into idle cycles, self-refresh and deep sleep stay; and the core energy grows by exactly the avoided current (standby current with the open rows less i3p, or i2n less i2p) times voltage, devices and cycle time, summed over the cycles in power-down. With power-down currents no larger than standby currents the energy with power-down is never larger. Without the condition the times differ: leaving active power-down restarts tRAS, and an auto-precharge soon afterwards closes its row later.", "quantifier": "all memory descriptions, legal traces, times, and supply currents", "why_tests_cant": "Two complete runs have to be compared for every trace; tests contain a few fixed traces and never the same trace without power-down.", "anchors": ["src/DRAMPower/DRAMPower/standards/ddr4/DDR4Core.cpp:210", "src/DRAMPower/DRAMPower/standards/ddr5/DDR5Core.cpp:247", "src/DRAMPower/DRAMPower/standards/lpddr4/LPDDR4Core.cpp:183", "src/DRAMPower/DRAMPower/standards/lpddr5/LPDDR5Core.cpp:244", "src/DRAMPower/DRAMPower/standards/lpddr6/LPDDR6Core.cpp:240"]}
{"id": "C61", "title": "Interface counts and printed energies of traces run one after another add up", "statement": "When every line of the interface has been at rest for at least one beat at the end of a trace, running a second trace after it, delayed by the length of the first, is taken by the interface whenever both are; the counts of the command bus, both data buses, the clocks and the strobes at the end are the sums of those of the two traces run alone; with all ranks at rest as well, every energy the program prints (core total, static and dynamic interface energy of either side, total) is the sum of those it prints for the two, and n times as much for a trace run n times. With toggling rates instead of data the counts of the data lines exceed the sum by at most one beat of all lines, because they are rounded down once for the whole time. Without the beat at rest the counts differ.", "quantifier": "all memory descriptions, standards, traces, lengths and repetition counts", "why_tests_cant": "Needs three complete runs for every pair of traces; tests use a few fixed traces and never the same trace moved in time.", "anchors": ["src/DRAMPower/DRAMPower/util/bus.h:200", "src/DRAMPower/DRAMPower/util/clock.h:30", "src/DRAMPower/DRAMPower/dram/Interface.cpp:21", "src/DRAMPower/DRAMPower/standards/ddr4/interface_calculation_DDR4.cpp:20", "src/cli/lib/DRAMPower/cli/run.cpp:100"]}
{"id": "C62", "title": "Upper and lower bounds on the power of the core", "statement": "For a sensible set of currents, the core energy at a later time is at least the one at an earlier time plus what the smallest standby current of any mode draws in between, and at most that plus what the largest standby current draws, plus the commands in between, plus the closing of rows open at the earlier time. From power-on: the energy lies between the smallest standby power times the time and the largest standby power times the time plus the commands. In particular the energy an object reports never falls between two queries, whatever is executed.", "quantifier": "all standards, memory descriptions, voltage domains, legal traces, splittings and query times", "why_tests_cant": "A bound over all traces and all pairs of times; a test compares one trace with one number.", "anchors": ["src/DRAMPower/DRAMPower/standards/ddr4/core_calculation_DDR4.cpp:30", "src/DRAMPower/DRAMPower/standards/ddr5/core_calculation_DDR5.cpp:30", "src/DRAMPower/DRAMPower/standards/lpddr4/core_calculation_LPDDR4.cpp:30", "src/DRAMPower/DRAMPower/dram/Rank.h:60", "src/DRAMPower/DRAMPower/util/cycle_stats.h:40"]}
{"id": "C63", "title": "Simultaneous commands to different banks commute", "statement": "If two neighbouring commands of a trace have the same timestamp and go to different ranks, or to disjoint sets of banks with neither of them changing the power mode, they may be exchanged, any number of times: the new trace is accepted, every rank and bank shows the same times, every counter is the same and so is the energy. On one and the same bank the order does count (refuted).", "quantifier": "all standards, memory descriptions, legal traces, exchanges and query times", "why_tests_cant": "All pairs of commands in all states of all banks and everything that follows them; a test fixes one exchange.", "anchors": ["src/DRAMPower/DRAMPower/standards/ddr4/DDR4Core.cpp:30", "src/DRAMPower/DRAMPower/standards/ddr5/DDR5Core.cpp:30", "src/DRAMPower/DRAMPower/standards/lpddr4/LPDDR4Core.cpp:30", "src/DRAMPower/DRAMPower/util/ImplicitCommandHandler.h:30"]}
{"id": "C64", "title": "A parameter matters only for the commands that use it", "statement": "Two memories with as many ranks and banks that agree on the parameters used by the commands of a trace (tRAS and the precharge offsets for auto-precharge, tRFC for all-bank refresh and self-refresh entry, tRFCsb, tRFCPB, tRFCDB and the bank addressing for the other refreshes, tRCD and tRP for power-down entry and exit) accept the trace alike and show the same times, counters and, with the same currents, the same energy. In particular the five cores, written separately, agree on all traces of the commands they have in common.", "quantifier": "all pairs of memory descriptions and standards, all traces and query times", "why_tests_cant": "Ranges over pairs of parameter sets and all traces; a test compares two configurations on one trace.", "anchors": ["src/DRAMPower/DRAMPower/standards/ddr4/DDR4Core.cpp:30", "src/DRAMPower/DRAMPower/standards/ddr5/DDR5Core.cpp:30", "src/DRAMPower/DRAMPower/standards/lpddr4/LPDDR4Core.cpp:30", "src/DRAMPower/DRAMPower/standards/lpddr5/LPDDR5Core.cpp:30", "src/DRAMPower/DRAMPower/standards/lpddr6/LPDDR6Core.cpp:30"]}
{"id": "C65", "title": "The check of the output path and the exit code", "statement": "The check of the path given with --json changes no existing file, directory or link; it creates at most one file, which is empty, and only when it succeeds; the path it arrives at, through any number of links, is a file afterwards, and so is the path that was given; a new name in an existing directory is accepted; without links in circles it always ends with a message or success. Exit code 0 means that configuration, trace and memory were accepted, everything was executed and the report stands in the named file, with all other files as before; any other end leaves all existing files as they were; --help ends with 0.", "quantifier": "all file systems, current directories, paths and outcomes of the run", "why_tests_cant": "All arrangements of links and directories; tests use a handful of temporary files.", "anchors": ["src/cli/main/validators.cpp:20", "src/cli/main/validators.cpp:67", "src/cli/main/validators.cpp:107", "src/cli/main/main.cpp:52"]}
{"id": "C66", "title": "Energies scale as their units demand and superpose", "statement": "With all voltages times a, all currents times b and all clock periods times c (not zero) every number of the core energy, and its total, is a b c times as large. The energies of several supply domains add up whatever their order, and the energy with the sum of two sets of currents for the same voltages is the sum of the two energies. With the interface voltage times a, resistances times r, clock periods times c and the energies per edge times k the static interface energies are a*a*c/r times and the dynamic ones k times as large, and a calculation has a finite result in the new units exactly when it has one in the old.", "quantifier": "all five standards, all memory descriptions with non-zero divisors, all statistics, all factors", "why_tests_cant": "Quantifies over pairs of configurations and all factors; a unit mistake that cancels for the tested numbers is invisible to tests with fixed values.", "anchors": ["src/DRAMPower/DRAMPower/standards/*/core_calculation_*.cpp:calcEnergy", "src/DRAMPower/DRAMPower/standards/*/interface_calculation_*.cpp"]}
{"id": "C67", "title": "Every statistic depends only on the parts of a command it is about", "statement": "The core accepts a history or fails in the same way, and gives the same numbers and energy, whatever the bank groups, rows, columns and payloads of its commands and whatever the interface is asked or set to. The clock depends only on when the interface is switched; strobes and the data clock also on times and sizes of bursts; the command bus on commands, addresses, burst sizes and the parity setting but not on payload; the data buses and inversion lines on bursts, their payload and the settings but not on any address; the estimates of toggling mode on times and sizes alone. Changing only payloads changes only data buses and inversion lines (in toggling mode only inversion lines); changing only groups, rows and columns changes only the command bus.", "quantifier": "all five standards, all memory descriptions, all states, all pairs of sequences of commands, settings and queries both of which run", "why_tests_cant": "A non-interference statement relates all pairs of runs; a test compares one pair.", "anchors": ["src/DRAMPower/DRAMPower/standards/*/*Core.cpp", "src/DRAMPower/DRAMPower/standards/*/*Interface.cpp", "src/DRAMPower/DRAMPower/dram/dram_base.h"]}
{"id": "C68", "title": "Which commands a core takes and which breaches of protocol it notices", "statement": "After any history a core has taken, a command other than the exits from self-refresh and deep sleep, the entry into deep sleep and (DDR4) the exit from active power-down is taken, asserted against or refused according to its type and addresses alone, so that a history of such commands is taken exactly if each is well addressed. After a legal history the reaction to every command is determined by type, addresses and, for the four commands named, the mode of the rank; these are the only breaches of protocol noticed. That every breach of protocol is noticed is false.", "quantifier": "all five standards, all well-formed memory descriptions, all histories (legal ones for the statements about modes), all commands", "why_tests_cant": "An exact statement about acceptance covers all histories and all commands; tests sample both.", "anchors": ["src/DRAMPower/DRAMPower/standards/*/*Core.cpp:doCommand", "src/DRAMPower/DRAMPower/util/RegisterHelper.h"]}
{"id": "C69", "title": "Exactly which traces an interface takes", "statement": "A newly made interface given a sequence of commands whose contents make sense (times in range, bursts with the announced data) runs it to the end if and only if every command is one the interface carries, to a bank and rank that exist for it, with bursts of at least a cycle, and no command or burst begins before its predecessor on the same wires is over; a DRAM object given a legal history runs it to the end under the same condition.", "quantifier": "every standard, every memory description, wires watched or estimated, every sequence of commands, any queries in between", "why_tests_cant": "Tests show traces that run and a few that fail; the equivalence says that there are no other reasons to fail and no reason that goes unnoticed.", "anchors": ["src/DRAMPower/DRAMPower/standards/*/*Interface.cpp:doCommand", "src/DRAMPower/DRAMPower/util/bus.h:load", "src/DRAMPower/DRAMPower/dram/Interface.cpp:incCountBurstLength"]}
{"id": "C70", "title": "The bytes of a stream", "statement": "Whatever the layout of the types, the bytes written by serialize are read back by deserialize to the last one and no further, with the results of C29, C30 and C48; every proper prefix of them makes a read run out of bytes; and the bytes of a core exist after every history, because no member exceeds its type.", "quantifier": "for all layouts, all configurations, all histories of commands, calls and queries, all orders of the settings, all bytes that follow, all points at which the stream is cut off", "why_tests_cant": "A test writes and reads with one layout, after one history, and cuts a stream at a few points at most.", "anchors": ["src/DRAMPower/DRAMPower/util/cycle_stats.h:78-106", "src/DRAMPower/DRAMPower/dram/Rank.cpp:25-63", "src/DRAMPower/DRAMPower/util/bus.h:260-278", "src/DRAMPower/DRAMPower/util/dbi.h:102-144", "src/DRAMPower/DRAMPower/dram/dram_base.h:86-96"]}
{"id": "C71", "title": "Exactly what the inversion lines are told and count", "statement": "For any history of interface calls that returns (bursts in any order, with any gaps, the inversion switched on and off at will), every inversion line of either direction has been told exactly the levels the calls determine: the flags of its bytes at the beat the burst starts, preceded, if the line was left inverted by an earlier burst, by the return to rest at the time of that next burst (or of END_OF_SIMULATION). The statistics of the lines are the sums over the beats of the resulting waves, where a later group of levels cuts the earlier short. A pin takes a sequence of levels exactly when times never go back and no time is given more levels than its storage holds; otherwise it asserts. It can be asked exactly from the time told last on.", "quantifier": "all interface specifications, all call histories, all payloads, all query times, all sequences of pin levels", "why_tests_cant": "The existing tests use single back-to-back bursts; the return to rest told at the next burst shifts all flags by one beat only after a gap following an inverted last byte, and overflows the storage on DDR4 only for full bursts.", "anchors": ["src/DRAMPower/DRAMPower/util/pin.h", "src/DRAMPower/DRAMPower/util/dbi.h", "src/DRAMPower/DRAMPower/standards/ddr4/DDR4Interface.cpp", "src/DRAMPower/DRAMPower/standards/lpddr4/LPDDR4Interface.cpp", "src/DRAMPower/DRAMPower/standards/lpddr5/LPDDR5Interface.cpp"]}
{"id": "C72", "title": "Exactly which calls an interface takes while data may be inverted", "statement": "A new DDR4, DDR5, LPDDR4 or LPDDR5 interface, given commands whose contents make sense and bursts of one size, with the data bus inversion switched on and off anywhere in between, runs them to the end if and only if the trace is allowed as without inversion (C69) and every inversion line is told its levels in order and never more for one time than its storage holds. Bursts in order that leave room for one more level on every line are always fine; a burst that fills the storage is refused after any history if the burst before left the line inverted and has been over for a while. So switching the inversion on loses traces that are taken without it. On LPDDR6, where the flags travel inside the data, inversion loses nothing as long as the bursts have one size; a larger burst after a smaller one can write flags out of bounds.", "quantifier": "all interface specifications but LPDDR6, all call histories, payloads and times, both modes of the data bus", "why_tests_cant": "Acceptance over all histories is an equivalence; the refused traces need a gap after a burst whose last byte on a line is inverted and a burst that fills the pin storage, which the library tests never combine.", "anchors": ["src/DRAMPower/DRAMPower/util/pin.h", "src/DRAMPower/DRAMPower/util/dbi.h", "src/DRAMPower/DRAMPower/util/bus.h", "src/DRAMPower/DRAMPower/standards/ddr4/DDR4Interface.cpp", "src/DRAMPower/DRAMPower/standards/lpddr4/LPDDR4Interface.cpp", "src/DRAMPower/DRAMPower/standards/lpddr5/LPDDR5Interface.cpp"]}
{"id": "C73", "title": "How a trace ends", "statement": "Given a trace of commands whose contents make sense, the object runs it to the end if and only if the core and the interface take every command; otherwise there is a first command that is not taken, the core being asked before the interface, and it alone decides how the run ends, whatever follows. The interface refuses by an assertion, save the self-refresh exit on DDR5 and the two-bank refresh of LPDDR5 with eight banks, for which there is no word and an exception is thrown. The program prints its results exactly if every command is taken; it reports failure only if one of those two commands is in the trace, does something undefined only for a refresh of a pair of banks of which the second does not exist, and dies at an assertion in all other cases.", "quantifier": "all device descriptions of the five standards, all traces (legal or not, as long as the mode a self-refresh exit or the like finds is determined), all trace texts that are read", "why_tests_cant": "It is a complete case distinction over all traces and all ways to end; tests run a handful of good traces and never look at how bad ones end.", "anchors": ["src/cli/lib/DRAMPower/cli/run.cpp", "src/DRAMPower/DRAMPower/dram/dram_base.h", "src/DRAMPower/DRAMPower/dram/Interface.h", "src/DRAMPower/DRAMPower/util/bus.h", "src/DRAMPower/DRAMPower/standards/ddr5/DDR5Interface.cpp", "src/DRAMPower/DRAMPower/standards/lpddr5/LPDDR5Core.cpp"]}
{"id": "C74", "title": "What is still to come after the last command", "statement": "After any history with non-decreasing times, legal or not, every implicit command still queued is due no earlier than the last command and no later than the longest delay of the memory after it. Asked later than that the core has nothing left to do and can be serialized; from then on every time of a rank or bank either runs for ever or stands for ever and the counters stand. After a legal history the queue of a rank holds exactly one entry for each row auto-precharge will close, each refresh that will end, and a mode change under way, so its length is bounded by the size of the memory whatever the length of the trace; and once everything has happened the core draws constant power, the standby power of the states the ranks are left in.", "quantifier": "all memories of the five standards, all histories with non-decreasing times and room before 2^64 (for the exact contents, the bound and the power: all legal ones), all later times", "why_tests_cant": "Bounds on the look-ahead and on the length of the queue are about every history, and constant power about every later time.", "anchors": ["src/DRAMPower/DRAMPower/util/ImplicitCommandHandler.h:16", "src/DRAMPower/DRAMPower/standards/ddr4/DDR4Core.cpp:103", "src/DRAMPower/DRAMPower/standards/ddr4/DDR4Core.cpp:280", "src/DRAMPower/DRAMPower/standards/lpddr5/LPDDR5Core.cpp:306"]}
{"id": "C75", "title": "What waiting costs", "statement": "Once the wires have come to rest and no implicit command is pending, every further cycle adds the same amount to every count of the interface and to every energy the program prints: the clock lines alternate, all other lines are held at their idle level, strobes and inversion pins add nothing, and the core draws the standby power of the states its ranks are in. Without toggling rates only the clocks cost anything on the wires. The wires are at rest at the latest five cycles after the last command, or when the longest burst is over. Putting off the END of a trace from T to t therefore changes the total printed by exactly (t - T) times a constant known from the memory description.", "quantifier": "All five standards, all memory descriptions that satisfy the stated conditions, all traces, all T and t, with and without toggling rates.", "why_tests_cant": "The tests compare energies of a handful of traces, each with one end time. That the cost of a cycle does not depend on how long one has been waiting, on the trace, or on where the query falls relative to a burst is a statement about all pairs of end times.", "anchors": ["src/DRAMPower/DRAMPower/util/bus.h:51", "src/DRAMPower/DRAMPower/util/clock.h:65", "src/DRAMPower/DRAMPower/dram/Interface.h:61", "src/cli/lib/DRAMPower/cli/run.cpp:100", "src/DRAMPower/DRAMPower/standards/ddr4/DDR4Core.cpp:280"]}
{"id": "C76", "title": "The table of command handlers dispatches to the handler registered last", "statement": "A Router has one entry for every command type. Whatever handlers are registered in whatever order, a command calls the one registered last for its type, or the default handler (by default one that does nothing) if there is none, and no other. A handler without target throws, and COUNT, which is no command, is refused by routeCommand and executeCommand.", "quantifier": "All default handlers, all sequences of registrations, all commands.", "why_tests_cant": "No test uses the class, and registrations form unbounded sequences.", "anchors": ["src/DRAMPower/DRAMPower/util/Router.h:31", "src/DRAMPower/DRAMPower/util/Router.h:38", "src/DRAMPower/DRAMPower/util/Router.h:46"]}
{"id": "C77", "title": "The size of the chunks in which a trace file is read does not matter", "statement": "The CSV reader maps and parses a trace file in chunks (of 10 MB), each starting where the last complete row of the one before ended. If no row is longer than a chunk, no chunk ends between two line end characters, no double quote is doubled and there is at least one row, then the rows it returns are those of the file parsed in one piece, each once and in order, whatever the size of the chunks. The conditions are needed: a CR LF across the end of a chunk adds a row with one empty field, a first row longer than a chunk makes the file empty, a later one makes the program read for ever, a doubled quote at the end of a chunk changes the first field of the next row, and a file of a byte order mark only gives a row.", "quantifier": "All texts, all chunk sizes of at least three bytes, all page sizes.", "why_tests_cant": "The tests read small files, which are one chunk; how rows lie across the ends of chunks is unbounded.", "anchors": ["src/cli/lib/DRAMPower/cli/csv.hpp:7094", "src/cli/lib/DRAMPower/cli/csv.hpp:6983", "src/cli/lib/DRAMPower/cli/csv.hpp:7519", "src/cli/lib/DRAMPower/cli/csv.hpp:7565", "src/cli/lib/DRAMPower/cli/run.cpp:102"]}
{"id": "C78", "title": "Every schedule of the CSV reader's threads", "statement": "However the main thread (read_row) and the thread that reads a chunk interleave, the loop over the rows gets the first rows of the file in order and nothing else, except that the last row may come once more if the file ends without a line end; every schedule ends, without a deadlock; a file of one chunk is read whole. Files of several chunks are not always read whole: there are schedules that lose the rows of the last chunk, read the last row twice, or end the program with an uncaught error code.", "quantifier": "all chunk sizes of at least 3 bytes, page sizes, files whose rows fit a chunk, and all schedules (finite lists of choices between the two threads) of the sequentially consistent interleaving model", "why_tests_cant": "the losing schedules need the reading thread to run entirely between two adjacent tests of the main thread; a test run shows one schedule, and none of the test files is larger than a chunk of 10 MB", "anchors": ["src/cli/lib/DRAMPower/cli/csv.hpp:7519-7554", "src/cli/lib/DRAMPower/cli/csv.hpp:7488-7503", "src/cli/lib/DRAMPower/cli/csv.hpp:7094-7121", "src/cli/lib/DRAMPower/cli/csv.hpp:5918-6004", "src/cli/lib/DRAMPower/cli/csv.hpp:7565-7575"]}
{"id": "C79", "title": "A core read from a stream that breaks off", "statement": "deserialize of a core never notices that its stream breaks off: from every prefix of what a core of the same shape has written it returns normally, and the result is exactly this: members before the break are the writer's, members after it are the reader's own with every optional (start and end of every interval) reset, and a break between the flag of an optional and its value leaves that optional alone. On a stream that does not break off it is the ordinary read. It does not leave the reader unchanged and does not leave a consistent core: a bank can be active without ever having been opened.", "quantifier": "all cores to read into, all cores written of the same numbers of ranks and banks, all places between two values where the stream may break off", "why_tests_cant": "the tests deserialize whole streams only; a core has hundreds of places where the stream may end, for each pair of contents of reader and writer", "anchors": ["src/DRAMPower/DRAMPower/util/cycle_stats.h:91-106", "src/DRAMPower/DRAMPower/data/stats.h:41-53", "src/DRAMPower/DRAMPower/dram/Bank.h:42-50", "src/DRAMPower/DRAMPower/dram/Rank.cpp:45-63", "src/DRAMPower/DRAMPower/standards/ddr4/DDR4Core.cpp:343-349"]}
{"id": "C80", "title": "A device hears the command that was given", "statement": "For every standard, command type, address, setting the interface can reach and previous pattern: a device that reads the command pins by the truth table of its standard (which pin is the auto-precharge flag, which pins carry which address bit, which levels select which operation) hears the operation of the command with the bank, bank group, row and column it was given, cut to the width of the pins, in the number of beats the operation takes. And on the wires: whatever a user calls in whatever order, if every call returns, the command bus statistics count the beats of one waveform in which a device watching from the cycle of any command on hears that command.", "quantifier": "all standards, LPDDR5 bank architectures, command types with a pattern, coordinates, override settings reached by any number of bursts, and previous words; for the wires, all sequences of interface calls that return", "why_tests_cant": "The tests compare a few encoded words with literals; a swapped pair of address pins or a wrong opcode bit shows up only for addresses or commands that happen to be tried.", "anchors": ["src/DRAMPower/DRAMPower/standards/ddr4/DDR4Interface.cpp:51-141", "src/DRAMPower/DRAMPower/standards/ddr5/DDR5Interface.cpp:48-120", "src/DRAMPower/DRAMPower/standards/lpddr4/LPDDR4Interface.cpp:48-115", "src/DRAMPower/DRAMPower/standards/lpddr5/LPDDR5Interface.cpp:44-239", "src/DRAMPower/DRAMPower/standards/lpddr6/LPDDR6Interface.cpp:48-212", "src/DRAMPower/DRAMPower/command/Pattern.h:17-27"]}
{"id": "C81", "title": "What was sent can be read off the wires", "statement": "Whatever a user calls in whatever order, if every call returns, the statistics of the data bus in each direction are those of one waveform, and from that waveform every bit of every burst can be read back: with data bus inversion off it is the level sampled at its line and beat; with inversion on it is that level, inverted exactly when the inversion line of its byte was told so for this burst (the lines taking turns byte by byte). On LPDDR6 the frame carries the flags and the metadata: each data bit is the level at its place, inverted when the level at the place of its flag is high, and every metadata bit set last is found at its place. Literal reading refuted: the flag is not the level of the inversion line in the same beat, because words are played last first and flags first first.", "quantifier": "all standards, configurations, sequences of interface calls that return, bursts in them and bit positions", "why_tests_cant": "The tests check aggregate counts of ones, zeros and changes for a few payloads; a permutation of bits or a flag attached to another byte keeps most counts.", "anchors": ["src/DRAMPower/DRAMPower/util/databus.h", "src/DRAMPower/DRAMPower/util/bus.h", "src/DRAMPower/DRAMPower/util/dbi.h", "src/DRAMPower/DRAMPower/util/pin.h", "src/DRAMPower/DRAMPower/standards/*/*Interface.cpp:doCommand"]}
{"id": "C82", "title": "An interface read from a stream that breaks off", "statement": "When the serialized form of an interface ends too early, deserialize raises no error and goes on with what each variable held before. For DDR5, LPDDR4, LPDDR5 and LPDDR6, read into any reachable interface of the same make: if the stream ends among the settings of the pattern encoder the read uses uninitialised locals and is undefined; at every other place it ends, the members before the break are those of the writer, the members after it are those of the reader with the stored bursts of each bus, the start of each clock and the encoder settings lost, and the members that are not serialized are those of the reader. For DDR4 every stream with fewer than 119 values is undefined, because the lengths inside the inverter are uninitialised locals. A whole stream is read as in the model of whole streams. Refuted: that reading an empty stream leaves the interface usable; the next read command is undefined.", "quantifier": "for all specifications, toggle settings, call histories of the writer and the reader, traversal orders of the settings map and all places of the break", "why_tests_cant": "A test would have to cut every stream of every reachable interface at every place, and undefined behaviour on uninitialised locals need not show in a run.", "anchors": ["src/DRAMPower/DRAMPower/util/dbi.h:120-144", "src/DRAMPower/DRAMPower/util/dbi.h:332-348", "src/DRAMPower/DRAMPower/command/Pattern.h:170-179", "src/DRAMPower/DRAMPower/util/burst_storage.h:318-328", "src/DRAMPower/DRAMPower/util/clock.h:86-97", "src/DRAMPower/DRAMPower/standards/ddr4/DDR4Interface.cpp:394-412"]}
{"id": "C83", "title": "A whole device read from a stream that breaks off", "statement": "The stream of a device holds its extensions, its core and its interface. When it ends too early no error is raised. DDR4: a break before the interface is undefined, whatever device of the same make it is read into. The others: a break among the extensions or inside the core leaves the extensions and core members that were read, the older ones after them with every optional reset and metadata set to zero, and an interface that has lost its stored bursts, encoder settings and clock starts; a break inside the interface leaves the extensions and the core of the writer (except the queue) and the interface that C82 describes. A whole stream is read as in the model of whole streams. Refuted: that the device is usable after a read that raised no error; its next command is undefined.", "quantifier": "for all specifications, all histories of calls on the writing and on the reading device, and all places of the break", "why_tests_cant": "The number of pairs of reachable devices and places is unbounded, and the reads never report a failure that a test could observe.", "anchors": ["src/DRAMPower/DRAMPower/dram/dram_base.h:86-96", "src/DRAMPower/DRAMPower/util/extension_manager.h:130-138", "src/DRAMPower/DRAMPower/util/extensions.cpp:27-60", "src/DRAMPower/DRAMPower/standards/ddr4/DDR4.cpp:68-76"]}
{"id": "C84", "title": "A core or device read from the stream of another memory", "statement": "A stream does not say what it was written by. A core of any standard and timing, read from the stream of a core of any other, takes its ranks and banks from the stream by position. With the same numbers of ranks and banks it becomes exactly the writer. With fewer ranks it becomes the writer's first ranks, with the writer's last command time, and what was written of the other ranks stays unread in the stream, as values and as bytes; with a single rank of fewer banks it takes over the rank's state and counters, those about the missing banks included. With more ranks, its further ranks keep their numbers but forget every running interval. A whole device of fewer ranks then reads its interface from the bytes left of the other ranks. None of this raises an error: that a foreign stream is noticed, and that everything written is kept, is refuted.", "quantifier": "for all pairs of memory specifications, all histories of the reader and of the writer, all continuations of the stream and all byte layouts", "why_tests_cant": "The tests write and read with one and the same specification; what a read from a foreign stream leaves depends on both histories and both shapes, of which there are unboundedly many.", "anchors": ["src/DRAMPower/DRAMPower/standards/ddr4/DDR4Core.cpp:335-349", "src/DRAMPower/DRAMPower/standards/lpddr4/LPDDR4Core.cpp:333-345", "src/DRAMPower/DRAMPower/dram/Rank.cpp:25-63", "src/DRAMPower/DRAMPower/dram/Bank.h:33-50", "src/DRAMPower/DRAMPower/dram/dram_base.h:86-96"]}
{"id": "C85", "title": "Precharges never outnumber the openings of a bank nor the precharges asked for", "statement": "In every history the core accepts, whether it keeps to the rules of the device or not, the precharge counter a bank shows is at most the number of commands that opened the bank (activations and refreshes of it) and at most the number of commands that asked for its precharge (precharges of it and reads or writes with auto-precharge). For a bank that is never refreshed the precharge counter is at most the activation counter.", "quantifier": "every memory description, every accepted command list, every query time, every rank and bank", "why_tests_cant": "tests count precharges in a few well-behaved sequences; the bound must hold for every interleaving of explicit precharges, pending auto-precharges and refreshes, including repeated and superfluous ones", "anchors": ["src/DRAMPower/DRAMPower/standards/ddr4/DDR4Core.cpp:80-101", "src/DRAMPower/DRAMPower/standards/ddr5/DDR5Core.cpp", "src/DRAMPower/DRAMPower/util/ImplicitCommandHandler.h"]}
