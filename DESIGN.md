# Formal model of paxswill/mlx9064x-rs in Rocq (Coq 8.16.1)

Layout (`rocq/theories`):

| layer | files | content |
|---|---|---|
| model | `Base`, `FloatOps`, `Register`, `Bus`, `Camera`, `Cam640`, `Cam641`, `Hamming`, `Ee640`, `Ee641`, `Calc`, `Driver`, `Mock`, `Public`, `Examples`, `LowLevel`, `Program`, `Text`, `Time`, `B32`, `RealOps` | executable Gallina, one definition per Rust item, each with the file and lines it models |
| specification | `Spec*` | small definitions that state what a property means, written from the documentation/datasheet and not from the code |
| proofs | `*Facts` | lemmas |
| properties | `P_*` | only `Theorem … exact lemma. Print Assumptions` and non-vacuity `Example`s |

## Modelling decisions

* **Values.** `u8/i8/u16/i16` are `Z`, with the wrap-around or the range check written
  explicitly at each operation that can overflow. A `profile` (`Debug` = overflow checks on,
  `Release` = off) is a parameter of every function containing a checked arithmetic operation.
* **Panics** are an explicit outcome `Panic`; `Result` is `Ok`/`Err`; a `while` loop takes fuel
  and returns `Diverge` when the fuel is used up, an outcome distinct from the others.
* **Floats.** All code over `f32` is parametric in a record `FloatOps` (carrier and operations).
  Theorems about control and data flow quantify over *every* such record, so they hold for the
  hardware, soft-float and libm implementations. Numerical theorems use the instance `B32`, IEEE-754
  binary32 with round-to-nearest-even, taken from Flocq (`BinarySingleNaN`), with `powi`/`powf`
  (and `exp2` at non-integers) left as arbitrary functions.
* **Bus.** The I2C bus is an arbitrary state type with arbitrary transition functions for
  `write_read` and `write`, each returning an optional error and, for reads, arbitrary new buffer
  content even on error (clipped to the buffer and to bytes). Theorems quantify over it, so they cover every
  device behaviour, schedule of the camera, and fault pattern. Every transaction is
  logged in a ghost trace.
* **Histories.** `Driver.step` interprets one public method call; histories are lists of calls.
* **Iterators** are modelled by their `next` function unrolled into lists where the code collects
  them; `zip` is the shortest-list zip; the mask iterator is a list (after its end: `false`).

## Trusted base

* Coq 8.16.1 kernel (and `vm_compute` in some proofs; `coqchk` rechecks all modules).
* Axioms: listed by `Print Assumptions` under each theorem in `P_*.v`. Theorems parametric in the
  floats: closed under the global context. Theorems about `B32` use Flocq and hence the standard
  library's axioms for the reals (`ClassicalDedekindReals.sig_not_dec`, `sig_forall_dec`,
  `functional_extensionality_dep`) and `Classical_Prop.classic`.
  These are C04 (conversions to and from `f32`), C05 (`resolution_correction`), C34, C36, C40, C42-C44, C48, C67, C72-C75, C77 (program and
  default count), C86 (binary64), C91 (the programs are about `B32`), C93, C97, C99-C101, C108 (driver), C109 and C110; C65, C66, C98 and C108 (frames) are about `RealOps` and use the real-number
  axioms for the same reason. `RealOps` says nothing about rounding: it gives the meaning of the formulas.
  Of the 416 property theorems 293 are closed under the global context, 116 use all four axioms and
  7 (`C04_from_u8`, `C04_rejects`, `C34_forms_differ`, `C72_fraction_reads_warmer`, `C77_cast_truncates`, `C93_number`, `C93_order`) only
  `sig_forall_dec` and `functional_extensionality_dep`.
* The reading of the Rust code: the model is hand-written; the code is never run here. As a check of
  that reading, `Conformance.v` runs the repository's own unit tests on the model (with `B32`, repeated
  squaring for `powi` and the correctly rounded fourth root for `powf(_, 0.25)`), with the authors'
  inputs, expected values and tolerances: the worked examples of both datasheets, all per-pixel
  calibration values of the recorded camera, and the 768 temperatures of its two recorded frames
  (`driver.rs` `mlx90640_example_integration`). They are tests and no property rests on them.
  `ExampleData.v` is generated from `mlx90640_example_data.rs` by `tools/gen_example_data.py`.
* `f32` operations are IEEE binary32 RNE; `f32::from(n).exp2()` is exact for integers; `powi` and `powf` are arbitrary
  (`libm`), with assumptions only where a theorem states them, and C109 derives those about `powi` from the published routines; the
  behaviour of `core`, `arrayvec`, `bitvec`, `num_enum`, `paste` as documented.

## What is modelled

All non-test code of `util.rs`, `register.rs`, `common.rs`, `calculations.rs`, `driver.rs`,
`mlx90640/{mod,address,eeprom}.rs`, `mlx90641/{mod,address,eeprom,hamming}.rs`, `error.rs`, and
`MockCameraBus` of `mlx9064x-test-data/src/i2c_mock.rs`, and the example programs
`examples/{true-frame-rate,terminal-temperatures}.rs` from the command line on (`I2cdev::new` and `str::parse::<f32>` are arbitrary functions).

Simplified: `{:?}` of texts escapes only quotes and backslashes; `{:?}` of bus errors is an arbitrary function.

Not modelled: derived `Debug` of other types, the sources of the mathematical libraries (the `std`/`libm` split: C95, C109), `{}` of the frequencies true-frame-rate prints (a printed frequency is modelled by the number), `Vec::reserve`, the benchmark load_calibration.rs (it only calls `from_data`) and the measuring framework of the other,
`Rc<RefCell>` aliasing of the mock, memory layout, timing, stack usage.

## Properties

See the end of this file for the plan of each property (written before the proofs) and
`MANIFEST.json` for the outcome.

| id | model | proof |
|---|---|---|
| C01-C03 | `Register` | bit-level (`Z.testbit`) lemmas for masked updates; no sweep over raw values needed except nibble-size fields |
| C04, C05 | `Register`, `B32` | case analysis; floats: decide equality with the eight constants by Flocq's comparison |
| C06-C09 | `Hamming` | code is linear: `encode (a xor b) = encode a xor encode b`; syndrome lemma reduces every claim to a sweep over the 32 syndromes / 2048 data words |
| C10-C12 | `Cam640`, `Cam641` | closed form of each iterator by induction on the index, then arithmetic |
| C13-C16 | `Bus`, `Camera` | induction over the list of ranges for an arbitrary bus |
| C17 | `Driver` | invariant over histories: each step appends safe transactions |
| C18-C29 | `Driver` | symbolic execution of each method for an arbitrary bus; induction over histories / fuel |
| C30 | `Mock` | invariant: the mock accepts every transaction the driver sends |
| C31-C33 | `Calc` | induction over the zipped lists, parametric floats |
| C34 | reals | `field`; refutation by witness |
| C35 | `Calc` | direct, plus a reachable witness |
| C36 | `B32` | Flocq monotonicity of rounding |
| C37-C45, C54 | `Ee640` | parser lemmas by buffer position; closed forms of the accumulated arrays; Flocq exactness lemmas |
| C46-C51 | `Ee641` | parser lemmas modulo word-wise Hamming decoding |
| C52 | `Base`, `Ee640`, `Ee641` | `Z` bit lemmas |
| C53 | `Camera` | induction on the distance from the basic range |
| C55 | `Driver`, `Calc` | every `Ok` frame is the documented image of some successfully read memory; `usable` preserved by every history |
| C56 | `Driver`, `Mock` | symbolic execution of each method on the mock's device functions |
| C57, C58 | `Driver`, arbitrary bus | invariants on the appended trace segments |
| C59 | `Driver`, `Mock` | C55/C23 specialised to the mock memory |
| C60, C61 | `Mock` | bit lemmas on `check_new_against_mask`; refutations by general witnesses |
| C62 | `Driver`, `Ee640`, `Ee641` | lengths of the closed-form calibration records; `usable` from `new` and preserved by every history; case analysis over all calls using C18, C27, C35, C55 |
| C63 | `Register` | per-bit case analysis from the setter lemmas of C01/C02 |
| C65, C66 | `Calc` over `RealOps` (the same model with exact real numbers for the floats) | fourth roots and monotonicity of x^4 over the reals |
| C67 | `Driver`, `Ee640`, `Ee641` over `B32` | interval bounds (powers of two) propagated through every operation with Flocq; NaN absorbed by every operation |
| C64 | `Driver`, `Calc` | every method commutes with exchanging the calibration; induction over histories |
| C68 | `Public`, `Ee640`, `Ee641` | induction over the flags; C41, C51 |
| C69 | `Public` | case analysis over the names, arithmetic for all numbers |
| C70 | `Driver` | `usable` preserved by every history |
| C71 | `Public` | hexadecimal and decimal digits are injective; escaping is injective |
| C72 | `Driver`, `Ee640`, `Ee641` over `B32` | absolute rounding errors (Flocq's `error_N_FLT`) propagated through every operation of the ambient temperature, composed with C42/C44/C48 (constants), C55 (formula) and C29 (constructors) |
| C73 | `Driver`, `Calc`, `Ee640`, `Ee641` over `B32` and `RealOps` | the same formula of SpecImage instantiated with both arithmetics; absolute rounding errors propagated as in C72 |
| C74 | `Driver`, `Calc` over `B32` and `RealOps`; `powi`/`powf` an arbitrary library with relative error 2^-22 (`accurate_powers`) | errors propagated in units of the signal as radiation (`snear`), fourth root by a mean-value bound; `C74_library` shows the library assumption can be met, `C74_concrete` the working range |
| C75 | `Driver` histories, `Ee640`, `Ee641`, `Calc` | C55, C62, C73, C74 composed with the invariant that the cached resolution correction always belongs to some resolution |
| C76 | `Examples` (true-frame-rate.rs), clock an arbitrary function of the bus's history | relation between the run and the answers a user polling `last_measured_subpage` sees (`watches`, `changes`), induction on poll bound and count |
| C77 | `Examples`; durations are nanoseconds in `Z` (the frequencies printed: C86) | permutation and sortedness of the insertion sort, fold invariant for the mode, telescoping sum; default count from C04's conversion in binary32 |
| C78 | `Examples` (terminal-temperatures.rs; the formatting of numbers: C93) | C55 twice, C70, list induction for the rows |
| C79 | `Examples`, strings as Coq strings (ASCII) | digit table, induction on the string with monotonicity for the early overflow check |
| C80 | bus transcripts, `replay` bus (`SpecReplay`) | `uniform` (every driver call is one decision tree over bus answers, for all buses alike), induction on the tree |
| C81 | `shared` bus of two independent devices, drivers used by turns (`SpecReplay`) | the same, one induction for either part of the bus, induction on the interleaving |
| C82 | drivers that are `alike` but for buffer contents, buses that fill buffers (`SpecRetry`) | relational (two-run) argument through every method (`RetryFacts`), frame coverage from C14/C55 |
| C83 | cameras with the documented hold mode (`SpecHold.honours_hold`: enable bits change only by writes, RAM constant while holding, otherwise arbitrary) | per-call bound on the bits written (`step_within`), invariant along the transcript (`HoldFacts`), then C55 with the held memory; toy camera finishing a frame at every transaction as the concrete case, with a torn image before the hold |
| C84 | transactions and wire bytes of a transcript against a table per call (`SpecTraffic.budget`) | from the transcript characterisations of C18/C19/C20-C22/C27/C29; induction on the history |
| C85 | the log of the mock against the transcript of the world (`logged`), queue length included; refused transactions and `clear_recent_operations` | one transaction at a time over `performed` (TraceFacts), then induction on the happenings |
| C86 | `Time.as_frequency` in Flocq's binary64 (53, 1024), round to nearest even | relative error of the three roundings; monotonicity of rounding; order of the report from C77 |
| C87 | two buses that differ only in the data of EEPROM reads (`SpecWear.same_but_eeprom`), driven side by side from `new` on | no call after `new` reads the EEPROM (`WearFacts.run_no_eeprom`, over the primitive steps); a uniform computation (C80) without EEPROM reads does the same on both; C46 for the construction |
| C88 | the same two buses; calibrations that agree except at one pixel (`SpecWear.agree_but`) | closed forms of both decoders (C37-C51) depend on a pixel's word at that pixel only (`PixelWords`); zips and masked loops keep "equal except at k" (`PixelFacts`); commutation with the change of calibration, as C64 |
| C89 | a camera with its own clock: `SpecStream.free_running` (frames are finished at the times of a film, also during transactions), `watch` = k calls of `generate_image_if_ready` | invariant `caught_up` (the program has n frames; no more are there and the flag is clear, or one more is there, not older than one poll), one call by cases of C20/C21, induction on k |
| C90 | the camera of C89, `Driver.synchronize` | the request establishes C89's invariant from any state, also if a frame is finished during the write; polls keep it; the time left until the next frame bounds the number of polls |
| C91 | the two `main` functions (`Program.v`), any `I2cdev::new` and any `f32` parser | relations `terminal_refuses`, `rate_refuses` describe the refused command lines; case analysis, then C17 (traffic), C45/C62/C77 (panics) |
| C92 | any bus at all (no assumption on the control register), `SpecStale.last_seen` on the transcript | invariant over primitive moves relating cached settings to the last control word in the transcript; per-call transcripts from C18/C27/C55 |
| C93 | `Text` (`{:4.2}` of an f32 as characters, the printing loop), `SpecText` (lines, words, numbers with two decimals) | exact integer arithmetic on mantissa and exponent against Flocq's `B2R`; ties to even give monotonicity; list induction for the table; C78 for the program |
| C94 | the camera of C89 (`SpecStream.free_running`), any speed; a sleep is a step of the device alone | one undisturbed call by cases of `image_outcome`; the number of frames during a sleep of k periods from the film's times; parity of the subpages |
| C95 | two instances `B32 l`, `B32 l'` of the float model with different library oracles (`SpecPort`: same calibration, same driver, same call) | a relational pass over the whole model: parsers (`alike`), calculations, every driver method (`blind`, `blindi`); `exp2` is only ever applied to integers (`PortFacts.exp2_any_library`) |
| C96 | users are numbered, each with a driver; `SpecShare.crowd_watch`, `crowd`: calls by turns on one bus; `followed`, `account`: what each user, and all together, may see | frames: induction over the turns with `P_Stream.poll_once`; settings: C18, C92 and the transcript of each call (`call_settles`); the lost update on the bus `meddled`, where another user's call precedes each write |
| C97 | `SpecOrder.orderly`: what is assumed of the library; `effective_sensitivity` (the denominator of the datasheet formula) over binary32 | every operation of the formula rounds monotonically (`RN_le`), signs decide the direction of the quotient (`quotient_order`); a computable library that is orderly (`C97_library`), with which the datasheet's pixel meets the hypotheses; for driver calls in P_Calls.v |
| C98 | the formulas of SpecImage over `RealOps` with two settings that differ in one field (`emissivity_set`, `reflected_set`); SpecPhysics' radiation balance as in C65 | the balance written as distance from the surroundings' radiation (`distance`); the signal of a frame divided by the emissivity (`signal_over_emissivity`); for driver calls in P_Calls.v |
| C99 | SpecImage's formulas over `B32`; `SpecNan.impossible_signal`, `domain_errors` | relative error bounds of the powers and products give the sign of the first radicand (`radicand_negative`), which survives the final rounding (`sum_negative`); NaN propagates through the rest; for driver calls in P_Calls.v |
| C100 | the f32 ambient temperature of SpecImage, constants of C72 (`carries`), histories of a driver from `new` | the ratio of the sensor's two readings: C72's error bound of the denominator is smaller than the change of the ratio when PTAT changes by one (`ratio_order`); every other operation rounds monotonically |
| C101 | SpecImage's formulas over `B32`; `SpecNan.keeps_non_numbers` | backwards through the formula: a finite sum, difference or product has finite operands, a finite quotient a finite dividend and a divisor that is not zero or NaN |
| C102 | SpecSpeed: times in bus clock cycles, the documented table; free-running cameras of C89; buses on which no byte takes less than nine cycles | keeping up: C89 with C84's byte counts; falling behind: the time of a call is at least that of its bytes (`performed_time`, induction over the transactions), against the number of frames the film finishes meanwhile |
| C103 | SpecPlan: transcripts of successful reads that bring given RAM words, bytes on the wire (SpecTraffic) | linear-programming duality: each needed word carries a weight (6 bytes for a start, 2 per word of a gap bridged, at most), no read is charged more than its bytes (induction over the ascending words), and the weights sum to the driver's bytes minus the stated saving; the saving is attained by an explicit plan |
| C104 | SpecCustom: which pixels calibration data have values for; drivers with arbitrary calibration data for one of the two cameras | C55's pixel lemmas with the lengths of the lists as case distinctions; panics by inversion of the calculation; saved calibration from C29 and C80 |
| C105 | LowLevel: the benchmark raw_to_temperatures.rs over an arbitrary bus (without criterion and the lock; what it does to the mock between frames is any change of the device) | the same calls in the same order as the driver's; C31 for the two functions; C29 for the settings |
| C106 | read_ram with its const parameter and buffer as arguments; SpecCamera | the capacity check is the only use of HEIGHT; then C10-C16's facts about frame reads |
| C107 | SpecCrash: `cut bs bs0`, a bus whose devices `bs` are reached for n transactions only; `control_register_is`, `keeps_flag` | driver computations are `uniform` (StrategyFacts): the run on the cut bus is the run on the whole bus up to transaction n and leaves the camera alone afterwards; each call makes at most one write (CrashFacts.step_shape), last except in synchronize |
| C108 | over exact reals (RealOps), on the documented image (SpecImage `doc_pixel`, what the driver stores by C22/C55); `explains_signal`, `sensitivity_at` of SpecPhysics | the temperature is the fourth root that explains the signal (C65); fourth roots of numbers above a bound are Lipschitz; the change of sensitivity between the two first estimates is bounded the same way; the driver's theorem (P_Steady) adds C75, whose working range implies that object temperatures explain the signals |
| C109 | `Powers`: the loops of `__powisf2` and of `num_traits::pow` over any arithmetic (their sources are outside /repo: the published algorithms) | induction on the binary exponent; `1 * y = y` for every float makes the two products the same; relative errors of two or three multiplications; C95 for programs |
| C110 | the f32 formulas of SpecImage on two frames (C55 for the driver) | the rounding errors of the steps in which the two evaluations differ (product, sum, difference, quotient, difference) bounded with the sizes of C73; what they share cancels |
| C111 | the model's build profile parameter, at both values, of everything that has it | "panics or is equal" is preserved by sequencing (induction on the decoding loops); the driver's four image methods case by case, histories by induction |
| C112 | as C72, C73, at `datasheet640`: `operating` is the range on the RAM words | the hypotheses of C72 and C73 follow from the range by interval arithmetic on the reals; the 768 pixels' coefficients by a computed check of the EEPROM words and C39, C40, C42 |
| C113 | as C74, at `datasheet640`: `temperate` is the range of the RAM words, `warm_object` the object's | the hypotheses of C74 and the bound on its tolerance follow by interval arithmetic on the reals from C112 and the sensitivities of the 768 pixels (computed check, C40) |
| C114 | as C112 and C113, at `datasheet641` and its corrected words | as C112 and C113, with C48 for the coefficients of the 192 pixels; the background radiation for emissivities below 1 |
