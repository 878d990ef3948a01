# Formal model of BlipKit (detomon/BlipKit) in Rocq

Coq 8.16.1, sources in `rocq/theories`, namespace `Verif`.  The C sources in
`/repo/src` are read as text; every model definition carries a comment citing
file and lines.

## Structure

| file group | content |
|---|---|
| `CInt.v` | C integer semantics: wrap to 32/16 bit, checked signed arithmetic, UB as a distinct outcome |
| `*Model.v` | executable Gallina model of one C file each (no proofs) |
| `*Spec.v` / spec sections | short independent specifications |
| `*Proofs.v` | lemmas |
| `Properties*.v` | only property theorems (`exact lemma`), `Print Assumptions` and non-vacuity examples |

### Modelling conventions

* `BKInt`, `BKUInt`, `BKFrame`, ... are `Z`.  Unsigned arithmetic wraps
  (`u32`).  Results are `res A := Ok a | Err e`.  Signed arithmetic that may
  overflow goes through `chk32`/`chk64`, which yield `Err EOverflow` (undefined
  behaviour).  Conversions to narrower signed types
  wrap (`s32`, `s16`; implementation-defined in C, two's complement on every
  supported compiler).
* `>>` of negative numbers is the arithmetic shift (implementation-defined).
  `<<` of negative numbers is multiplication by a power of two with overflow
  check (strictly UB in C99; all compilers in use multiply).
* Other undefined behaviour: `Err EBounds` (access outside of an object),
  `Err EDiv0`, `Err ENull`, `Err EFreed` (memory that was released).
* Loops are structural recursion or recursion on fuel with an explicit
  `Err EFuel` outcome; theorems exclude it or (for findings of non-termination)
  show it for every amount of fuel.
* `malloc` succeeds unless a property is about its failure.  Callbacks are
  function arguments (oracles).
* The 64-bit variant of `BKTime` is used unless stated; little endian unless stated.

## Plan per property

Claims that turned out false of the code are kept in `properties.jsonl` in the
form a user would expect them; for these the development proves a `_refuted`
theorem (concrete witness, evaluated by the kernel) and a `_partial` theorem
with the exact conditions under which the claim holds.

| id | model | proof idea |
|---|---|---|
| C01 | buffer with explicit array bounds, outcome UB outside | bound `(t mod 2^32) >> 20 <= 4095`, width 32, 4129 entries |
| C02 | same | additions on lists commute; induction over permutation |
| C03 | `BKBufferRead` over list of frames | loop splitting lemma, memmove = skipn ++ zeros |
| C04 | clamp expression | case analysis on the 18-bit amplitude |
| C05 | same | accounting under `capacity <= time>>20`; refuted in general |
| C06 | both kernel tables literally | row sums by computation, lifted to all times |
| C07 | both variants of BKTime.h | refinement `time*2^20+frac` |
| C08 | BKTimeMake | refuted for >= 2048 samples on 64 bit; proved below |
| C09, C10 | tables literally, lookup functions | table facts by computation, interpolation lemma |
| C11, C12, C13 | BKInterpolation | arithmetic on fixed point increments, induction over steps |
| C14, C20 | clocks and context run loop | invariant: clock time = context time; induction over run calls |
| C15 | divider tick | induction over ticks |
| C16, C17 | pointer heap with prev/next links | representation predicate, refinement to lists |
| C18, C19 | same heap model | refuted (loop never ends; half attached clock) |
| C21 | simple sequences | refinement to an index specification |
| C22, C23, C26 | envelopes | increments and termination measure |
| C24 | ownership model of copies | refuted (aliasing) |
| C25 | instrument state | counting invariant |
| C27..C31 | BKData conversion functions | finite sweeps over bytes lifted to lists; arithmetic |
| C32 | range normalisation | arithmetic |
| C33 | user list of data objects | list refinement; refuted for two rejecting users in a row |
| C34..C43 | BKUnit | state machine over API operations, invariants |
| C44..C49, C65 | BKTrack | arithmetic and state machine |
| C50..C54 | BKContext | composition of units, clocks and buffers |
| C55..C62 | WAVE reader and writer over byte lists | codec round trip |
| C63 | BKObject with a flag for released memory | state machine, destructor runs counted against initialisations |
| C64 | BKStatusGetName | case analysis on 32-bit values |
| C66 | macros | bitwise reasoning with `Z.testbit` |
| C67 | buffer | channel contents as convolution of the pulses with the kernel, over histories of calls |
| C68 | interpolation | bounds of the fixed point values |
| C69 | divider lists | same heap model as C17 |
| C70, C71 | blocks of memory seen by a data object and a unit | invariants over histories, findings by witnesses |
| C72 | instrument | frame property of setting a sequence |
| C73..C79 | tracks and units | state machine over API calls, invariants `track_ok`, laws of attributes |
| C80, C81 | BKContextGenerateToTime | block decomposition; witnesses |
| C82 | BKTrackReset/BKUnit time | witness over a concrete context |
| C83, C84 | context run loop | measure on the frames left; clock time against generated frames |
| C85, C86, C87, C88 | WAVE files | bytes of the file as a function of the appended frames |
| C89, C90, C94, C95 | data objects in a heap of blocks | separation by block numbers |
| C91 | BKDataReduceBits with arbitrary dither | case analysis on bits, quotient bounds |
| C92, C93 | loading files | composition with C55 and with BKDataSetData |
| C98, C99 | several sources in one channel buffer | summation by parts against the total variation of the kernel; bound of the leaky integrator |
| C100 | contexts with tracks, clocks and buffers together | every track is a source with bounded levels (C98); invariant over programs: pulses so far, level of each track, clock times |
| C101 | channel buffer without further pulses | iteration of the filter is monotone, its extremes by computation |
| C102 | contexts, two runs side by side | simulation relation between a program and the program without some tracks |
| C103 | contexts, three runs side by side | cells of the channels add up exactly, accumulators up to a bound the filter keeps |
| C104 | instruments and tracks as memory (`InstrUsersModel.v`) | invariant: lists of states represent the users; every step keeps it |
| C105 | sequences of instruments as memory | the same invariant with ownership of sequences |
| C106 | contexts, two programs with other call sizes | both runs equal the run frame by frame, which is deterministic |
| C107 | contexts and writers as memory, answers of the allocator | case analysis |
| C108 | data objects as memory, answers of the allocator | inversion of every function; answers consumed as a prefix |
| C109 | tables and lookup of periods, tracks | 12th powers of periods compared with 440^12 * 2^n, for all notes by computation, scaled to all rates |
| C110 | wave file writer on a full disk, reader | the file is the one of an unlimited disk cut at the limit; simulation of the writer |
| C111 | waveforms over many runs and ends | closed form of the loop of a run; joining runs at a common horizon |
| C112 | units attached to a context without a track | the state of a unit as a function of the time so far; ledger of pulses by unit; closed form of the frames |
| C113 | tracks which hold a note over ticks and requests | ticks change nothing of a track without effects; state of the unit as in C112 across clock ticks; symbolic evaluation of the calls on a new track |
| C114, C115, C116 | what is heard of a sample (`SampleProofs.v`, `PropertiesSample.v`) | a player of positions independent of the unit (`advance`, `play`, `reach`); one iteration of the loop is one `advance`; induction over steps and rounds; closed forms for repeated, single, there-and-back and held playing |
| C117, C118 | what is heard of an instrument in a track (`TrackInstr*.v`, `PropertiesInstr.v`) | setting the instrument and the note leaves every slot at the beginning of its sequence; each tick moves every slot as the sequence alone would (`slot_run`, `beats`) and gives the unit the four values; the values of one sequence are those of C21. A release puts every slot at the values behind its sustained part; the tick in which the last slot ends mutes the unit (`voice_ends`) |
| C119 | melodies on a track with an instrument (`TrackMelody*.v`, `PropertiesMelody.v`) | a track on which no event leaves anything behind but the state of its sequences is `ready`; every event keeps this (`ready_attack`, `ready_legato`, `ready_release`, `ready_again`, `ready_mute`, `ready_tick`, `ready_end`), and `rep` relates the track to the player of the statement |
| C120, C121 | melodies with an ADSR envelope (`TrackAdsr*.v`, `PropertiesAdsr.v`) | `env_level` is the closed form of the level; `attacked`/`released` (`TrackAdsr.v`) are the exact states of the slot, the `*_istate` lemmas (`TrackAdsr2.v`) say which phase each call of a track gives to its instrument, `holds` (`TrackAdsr3.v`) relates the state to the envelope and `follows` the track to the singer. C121 is false after a muted note |
| C122 | `BKContextReset` on clocks and dividers (`ContextReset.v`, `PropertiesReset.v`) | `context_reset_ok` gives the exact heap after the reset: clocks of the context rewound, dividers in the groups of these clocks rewound, dividers of the context's own groups unchanged; `restart` re-establishes the run invariant of C14/C15 with the periods at the reset. The channels (`BKBufferClear`) and of `BKUnitReset` all but the time are not part of this heap model (see C82 for them). |
| C123 | `BKContextReset` on what is heard (`ContextModel.v`; proofs in `ResetSame.v`, `TrackSame.v`, `ReplaySame.v`, `ReplayProofs.v`; `PropertiesReplay.v`) | a relation between two tracks which differ only in what a silent unit never reads (the channel volumes before the first update) is kept by every function of the unit, the track and the context (`same_step`), and a reset of two contexts with the same settings establishes it. Not covered: custom waveforms and samples at the time of the reset (refuted by `C123_custom_refuted`), different leftovers of earlier samples. |
| C124 | `BKTrackReset`, read back (`ResetReads.v`, `PropertiesRestart.v`) | `reset_exact` gives the track after a reset field by field (only the period is left open); each attribute is then read. Refuted for custom waveforms. |
| C125 | `BKTrackUpdateUnitVolume`, `BKTrackSetPanning` (`PropertiesMirror.v`) | The update of a unit after opposite pannings is compared field by field; the sound follows from the waveforms of C113. Refuted after slides of the panning. |
| C96, C97 | BKTimeFromSeconds and the period of the master clock | doubles as pairs of integers, explicit rounding to 53 bits |

## What is modelled

All functions of `BKBase.c`, `BKBuffer.c`, `BKClock.c`, `BKContext.c`,
`BKData.c`, `BKInstrument.c`, `BKInterpolation.c`, `BKObject.c`,
`BKSequence.c`, `BKTone.c`, `BKTrack.c`, `BKUnit.c`, `BKWaveFileReader.c`,
`BKWaveFileWriter.c`, the inline functions of `BKTime.h` and the bit macros,
except for the parts listed next.  Simplifications:

* Memory given by the client (frames, values of sequences) stays valid.
  `realloc` always moves.  Allocations of a possible size succeed,
  except in `AllocModel.v`, where the answers of the allocator are arbitrary.
* Callbacks of units, clocks, dividers and data states are oracles; they do not
  call back into the objects which call them.
* Pointers passed to setters have the kind the attribute asks for; sizes of
  effect parameters are multiples of 4.
* An instrument has at most one state in the model of tracks; instruments
  with many tracks are modelled as memory in `InstrUsersModel.v`, the list of
  states of data objects in `DataModel.v`.
* Contexts contain tracks; user clocks detached while running and user
  dividers in the effect group of a track are not part of the context model.
  Contexts with plain units, which have no clock, are modelled separately in
  `PlainModel.v`; contexts with both are not.
* In wave files reading and writing never fail; files are byte lists with a
  position, an access mode and flags for appending and seeking. In
  `DiskModel.v` a file has a largest size: a write stores what fits, and
  `fseek` may fail once the file has this size, because it has to write the
  buffer of the C library first. The buffer itself is not modelled.
* The dither of `BKDataReduceBits` (from `rand`, `pow` and floats) is an
  arbitrary function of the index and the running sum.
* A `double` (in `BKTimeFromSeconds`) is an integer times a power of two with
  any exponent, rounded to the nearest with ties to even; no infinite
  numbers.

## Not modelled

File system errors other than a full disk, failing allocations outside of `AllocModel.v` and
`InstrUsersModel.v`, multi-threading, the examples and the SDL utilities.

## Trusted base

* The Coq kernel (including `vm_compute`), checked again by `coqchk`.
* The faithfulness of the model to the C text (cited line by line).
* Axioms: every theorem named in `MANIFEST.json` is followed by
  `Print Assumptions` in its `Properties*.v` file; all of them print `Closed
  under the global context`.  `coqchk` additionally lists the axioms of
  `Coq.ssr.ssrunder`, which belong to the standard library and are not used by
  any theorem.
