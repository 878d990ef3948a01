{
 "claims": [
  {
   "property": "C01",
   "status": "proved",
   "theorems": [
    "C01_no_out_of_bounds",
    "C01_reachable_ok",
    "C01_pulse_in_bounds"
   ],
   "note": "All histories of buffer operations."
  },
  {
   "property": "C02",
   "status": "proved",
   "theorems": [
    "C02_mix_order",
    "C02_mix_defined",
    "C02_mix_sum",
    "C02_mix_linear"
   ],
   "note": "Order independence for every permutation when both orders are free of signed overflow; a sufficient condition for that is proved."
  },
  {
   "property": "C03",
   "status": "proved",
   "theorems": [
    "C03_read_split",
    "C03_reads_any_chunks"
   ],
   "note": "Equality of outcomes, including overflow; any list of chunk sizes."
  },
  {
   "property": "C04",
   "status": "proved",
   "theorems": [
    "C04_saturation"
   ],
   "note": "Saturation magnitude is 32766 instead of 32767 for amplitudes of 65536 and more."
  },
  {
   "property": "C05",
   "status": "partial",
   "theorems": [
    "C05_read_accounting_partial",
    "C05_read_at_most",
    "C05_read_accounting_refuted"
   ],
   "note": "Finding: a read of frames that were ended but not shifted wraps the buffer time, the buffer then reports up to 4095 frames. Exact accounting proved for histories that read at most the reported size."
  },
  {
   "property": "C06",
   "status": "proved",
   "theorems": [
    "C06_kernel_gain",
    "C06_pulse_gain"
   ],
   "note": "Both kernels, every time."
  },
  {
   "property": "C07",
   "status": "partial",
   "theorems": [
    "C07_time_variants_partial",
    "C07_time_defined",
    "C07_time_variants_refuted"
   ],
   "note": "Finding: the variants disagree for large 12.20 offsets (IsGreaterFUInt20 casts to a signed 32-bit value on 64-bit systems; SubFUInt20 beyond 2048 samples and AddFUInt20 beyond 4095 samples on 32-bit systems). Agreement proved below these limits."
  },
  {
   "property": "C08",
   "status": "partial",
   "theorems": [
    "C08_time_make_partial",
    "C08_time_make32",
    "C08_time_make_refuted",
    "C08_time_make_negative_refuted"
   ],
   "note": "Finding: on 64-bit systems the shift is done in int, so 2048 or more samples overflow and negative counts become large positive times."
  },
  {
   "property": "C09",
   "status": "proved",
   "theorems": [
    "C09_tone_total",
    "C09_tone_clamps",
    "C09_tone_monotone",
    "C09_semitones_differ"
   ],
   "note": "All 32-bit notes and all rates."
  },
  {
   "property": "C10",
   "status": "proved",
   "theorems": [
    "C10_log2_total",
    "C10_log2_monotone",
    "C10_log2_clamps",
    "C10_log2_reference",
    "C10_log2_octave"
   ],
   "note": "Octaves double up to an error of 4/2^20."
  },
  {
   "property": "C100",
   "status": "proved",
   "theorems": [
    "C100_any_kernel",
    "C100_harmonic",
    "C100_sinc",
    "C100_tracks"
   ],
   "note": "Tracks are made by BKTrackInit and calls whose arguments are in range (calm_call); samples, BKContextEnd/Read and GenerateToTime are outside of these programs. Loop bounds of the model are explicit and met by the stated constants."
  },
  {
   "property": "C101",
   "status": "proved",
   "theorems": [
    "C101_silence"
   ],
   "note": "For the channel buffer; 8128 frames are the 8096 steps of the filter and the 32 frames of a pulse."
  },
  {
   "property": "C102",
   "status": "proved",
   "theorems": [
    "C102_tracks"
   ],
   "note": "Programs as in C50 (legal), for both the whole and the reduced program, which have to run without error (C100 gives conditions). Clocks are compared when a track is left, as the master clock is attached with the first track. BKContextEnd/Read and GenerateToTime are outside."
  },
  {
   "property": "C103",
   "status": "proved",
   "theorems": [
    "C103_superposition"
   ],
   "note": "Programs as in C102; all three have to run without error (C98, C100)."
  },
  {
   "property": "C104",
   "status": "proved",
   "theorems": [
    "C104_users"
   ],
   "note": "Calls are on objects in use (iallowed); BKInstrumentInitCopy (C24) is outside. Events and values of sequences are in C19 to C25."
  },
  {
   "property": "C105",
   "status": "proved",
   "theorems": [
    "C105_sequences",
    "C105_set"
   ],
   "note": "Histories as in C104; the creation of a sequence is an oracle which fails, gives none or a new one (C24 models it)."
  },
  {
   "property": "C106",
   "status": "proved",
   "theorems": [
    "C106_requests",
    "C106_always"
   ],
   "note": "Programs as in C50 (legal) or C100 (calm); BKContextEnd/Read and GenerateToTime are outside (C80)."
  },
  {
   "property": "C107",
   "status": "partial",
   "theorems": [
    "C107_contexts_partial",
    "C107_no_channels",
    "C107_no_channels_alloc",
    "C107_contexts_refuted",
    "C107_writer",
    "C107_writer_refuted",
    "C107_writer_partial"
   ],
   "note": "Refuted for contexts without memory for channels: disposing them writes through a null pointer, and BKContextAlloc hands such a context out; refuted for wave writers with an unsupported number of bits, whose disposal writes to a null file. Proved for all other cases of contexts and writers."
  },
  {
   "property": "C108",
   "status": "partial",
   "theorems": [
    "C108_refused_partial",
    "C108_disposable",
    "C108_granted",
    "C108_raw_no_leak",
    "C108_empty_refuted",
    "C108_empty_data",
    "C108_copy_refuted"
   ],
   "note": "Proved for every refused allocation. Refuted for data without frames with allocators whose realloc releases blocks resized to 0 (as glibc): the object keeps a released pointer. The refused copy keeps numFrames. In BKDataNormalize only the promotion to a copy is modelled with memory."
  },
  {
   "property": "C109",
   "status": "partial",
   "theorems": [
    "C109_notes_partial",
    "C109_between",
    "C109_high_notes_refuted",
    "C109_track_partial",
    "C109_samples"
   ],
   "note": "Notes are never flat; they are sharp by at most 4 thousandths up to D#5, 7 up to E6 and 20 for all. Refuted for high notes: F7 is a third of a semitone too high, because two bits of the period are dropped. Samples are right to one part in 10000. Tracks without instrument, effects and pitch."
  },
  {
   "property": "C11",
   "status": "partial",
   "theorems": [
    "C11_slide_ends_on_target_partial",
    "C11_upward_slide_ends_on_target",
    "C11_slide_ends_on_target_refuted"
   ],
   "note": "Finding: for slow downward slides the rounding bias exceeds one unit, e.g. volume 1000 to 999 in 30000 steps ends at 1116. Proved for all upward slides and for downward slides with 256*steps < distance*2^shift."
  },
  {
   "property": "C110",
   "status": "partial",
   "theorems": [
    "C110_full_disk_partial",
    "C110_sizes_lost_partial",
    "C110_short_rejected",
    "C110_reported_refuted",
    "C110_silence_refuted",
    "C110_overrun_refuted"
   ],
   "note": "A write on a full disk stores the bytes for which there is room; buffers of the C library are not modelled except that fseek may fail on a full disk. If the size fields can be written, the frames which fit are read back and the rest is silent with 16 bits; if they cannot, and the file was never terminated before, the frames which fit are read back provided the last one is complete. Refuted: all calls return 0, so the client is not told; with 8 bits missing frames are not silent; with an incomplete last frame and lost sizes reading stores samples behind the array of the announced size. Not shown: size fields lost after the file was terminated in between."
  },
  {
   "property": "C111",
   "status": "proved",
   "theorems": [
    "C111_waveform",
    "C111_frequency"
   ],
   "note": "For times of a run below 2^31 - 2^20 clock units. A muted unit, or one without volume in all channels, does not advance its waveform; that is not part of the claim. Custom waveforms with a phase wrap restart within the cycle and are not included."
  },
  {
   "property": "C112",
   "status": "proved",
   "theorems": [
    "C112_heard",
    "C112_portions",
    "C112_late_refuted"
   ],
   "note": "For units attached before the first frames are generated; attributes are not changed in between. Finding (C112_late_refuted): without a track the context has no clock and deltaTime is reduced by every end but never advanced, so a unit attached after frames were generated starts with a wrapped time and is silent for up to 4095 frames."
  },
  {
   "property": "C113",
   "status": "proved",
   "theorems": [
    "C113_held",
    "C113_chord"
   ],
   "note": "C113_chord is for tracks whose attributes are set before they are attached, with explicit units; C113_held is for any calls on attached tracks before the first frames are generated, as long as arpeggio, instrument and effects are off, the units being those after changes are passed on. Callbacks of clocks make no calls."
  },
  {
   "property": "C114",
   "status": "proved",
   "theorems": [
    "C114_repeat",
    "C114_once",
    "C114_palindrome"
   ],
   "note": "For times of a run below 2^31 - 2^20 clock units. A unit with a callback plays like one which does not repeat (C42). Palindromes at a fractional speed are bounded by C40 but have no closed form: the fraction is not reflected at the ends."
  },
  {
   "property": "C115",
   "status": "partial",
   "theorems": [
    "C115_hold_partial",
    "C115_loop_partial",
    "C115_release",
    "C115_end_refuted",
    "C115_pitch_refuted"
   ],
   "note": "Proved for ranges ending before the end of the sample by at least the frames of one step; frame by frame at one frame per step. Refuted: the end of the sample is looked at before the range, so a range up to the end (-1) is not held and the note ends by itself; and the frames by which a step overshoots the range are dropped, so at other speeds the range is heard at a wrong pitch."
  },
  {
   "property": "C116",
   "status": "partial",
   "theorems": [
    "C116_even_partial",
    "C116_late_refuted",
    "C116_period_refuted"
   ],
   "note": "Proved for whole numbers of frames per step. Refuted: a pulse is added at the time of the step plus the fraction of the position, so at fractional speeds frames come up to one output frame late and unevenly; and a unit with a sample is silent until BK_PERIOD is set to some value, although a sample does not use it."
  },
  {
   "property": "C117",
   "status": "proved",
   "theorems": [
    "C117_values"
   ],
   "note": "For silent tracks without effects and arpeggio and sequences of values. Envelopes and effects are not covered here; the release is C118."
  },
  {
   "property": "C118",
   "status": "proved",
   "theorems": [
    "C118_values"
   ],
   "note": "For the notes of C117 which have not ended by themselves. The unit may not have a sample which is held by a sustain range, as a release moves such a sample (release_ok)."
  },
  {
   "property": "C119",
   "status": "proved",
   "theorems": [
    "C119_melody"
   ],
   "note": "For the instruments of C117. The unit may not have a sample with a sustain range (un_sustain); effects, arpeggio, slides and envelopes are not covered here."
  },
  {
   "property": "C12",
   "status": "partial",
   "theorems": [
    "C12_slide_monotone_partial",
    "C12_slide_from_midway_partial",
    "C12_slide_monotone_refuted"
   ],
   "note": "Same restriction as C11."
  },
  {
   "property": "C120",
   "status": "proved",
   "theorems": [
    "C120_adsr"
   ],
   "note": "The instrument has the envelope and nothing in its other slots; silent tracks without effects and arpeggio. The unit may not have a sample with a sustain range (un_sustain). Ticks are below 2^31."
  },
  {
   "property": "C121",
   "status": "partial",
   "theorems": [
    "C121_fade_in_partial",
    "C121_fade_in_refuted"
   ],
   "note": "Holds if no earlier note was muted. False after a mute: SetPhase keeps the shifted value of the envelope, and the attack goes on from the level at which the muted note was cut off."
  },
  {
   "property": "C122",
   "status": "partial",
   "theorems": [
    "C122_context_reset_partial",
    "C122_plain_partial",
    "C122_context_dividers_go_on",
    "C122_context_reset_refuted"
   ],
   "note": "Holds for clocks and the dividers attached to clocks, with the periods and counts their callbacks have left. False for the dividers attached to the context (BKContextAttachDivider): BKContextReset does not reset beatDividers and effectDividers, so such a divider goes on with its counter and fires out of phase unless its count divides the number of ticks before the reset."
  },
  {
   "property": "C123",
   "status": "partial",
   "theorems": [
    "C123_reset_audio_partial",
    "C123_replay_partial",
    "C123_custom_refuted"
   ],
   "note": "Holds for tracks with a built-in waveform at the time of the reset, whatever they have played before with such waveforms; what the last sample has left in a unit (its length, channels, frames and data object) has to be the same on both sides. Callbacks of clocks are given by the environment; dividers attached to the context itself keep their counters (C122). False with a custom waveform: BKTrackClear sets the saved waveform with BKSetAttr, which rejects BK_CUSTOM and BK_SAMPLE, and the track stays without waveform: the calls heard before the reset are silent after it."
  },
  {
   "property": "C124",
   "status": "partial",
   "theorems": [
    "C124_reset_partial",
    "C124_custom_refuted"
   ],
   "note": "Proved for reachable attached tracks with a built-in waveform; the period (of the lowest note) and the volumes of the channels, which are written by the next tick, are left out, and the callback of samples is kept. False for custom waveforms and samples: BKTrackClear cannot set them with BKSetAttr, and BK_WAVEFORM reads 0."
  },
  {
   "property": "C125",
   "status": "partial",
   "theorems": [
    "C125_volumes_partial",
    "C125_heard_partial",
    "C125_slide_refuted"
   ],
   "note": "Volumes proved for reachable tracks without panning sequence and without panning slide, now or before; frames proved for notes held with square, triangle, sawtooth and sine waves (as in C113). False after a slide of the panning: what a slide downwards has left for rounding is added to every panning set later, even if the slide was switched off, while an upward slide leaves nothing."
  },
  {
   "property": "C13",
   "status": "partial",
   "theorems": [
    "C13_interval_bounded_partial",
    "C13_interval_periodic_partial",
    "C13_interval_bounded_refuted"
   ],
   "note": "Finding: negative depths with many steps get a too large rounding bias. Proved for non-negative depths and for negative ones with 256*steps < depth*2^shift."
  },
  {
   "property": "C14",
   "status": "proved",
   "theorems": [
    "clocks_tick_on_schedule",
    "clocks_tick_at_multiples"
   ],
   "note": "Any number of clocks attached in any order to a fresh context, any callbacks that move the next tick, any split of the run into calls."
  },
  {
   "property": "C15",
   "status": "partial",
   "theorems": [
    "divider_fires_partial",
    "divider_fires_every_nth_partial",
    "dividers_in_context_partial",
    "divider_init_fires_partial",
    "divider_fires_refuted",
    "divider_overflow_refuted"
   ],
   "note": "Finding: divider values of 2^31 and more become negative, the divider then fires on every tick; for 2^31 the counter overflows. Proved for values below 2^31, also composed with the clocks of a running context."
  },
  {
   "property": "C16",
   "status": "partial",
   "theorems": [
    "lists_refine_partial"
   ],
   "note": "Any history of attach and detach operations. Missing: attaching before a clock of another context (see C19)."
  },
  {
   "property": "C17",
   "status": "proved",
   "theorems": [
    "divider_unit_lists"
   ],
   "note": "Any history of attach and detach operations on dividers and units."
  },
  {
   "property": "C18",
   "status": "partial",
   "theorems": [
    "clock_dispose_partial",
    "clock_dispose_refuted"
   ],
   "note": "Finding: disposing a clock which has dividers attached never terminates. Proved for clocks without dividers."
  },
  {
   "property": "C19",
   "status": "partial",
   "theorems": [
    "rejected_attach_partial",
    "rejected_attach_refuted"
   ],
   "note": "Finding: attaching before a clock of another context returns an error but leaves the clock half attached. Proved for the other rejections."
  },
  {
   "property": "C20",
   "status": "partial",
   "theorems": [
    "late_clock_stops_refuted",
    "clock_reset_hangs_refuted",
    "clocks_tick_on_schedule"
   ],
   "note": "Finding: a clock attached to a context that has already run never ticks, and resetting an attached clock makes the run loop endless. Clocks attached before the first run are covered by C14."
  },
  {
   "property": "C21",
   "status": "proved",
   "theorems": [
    "sequence_plays",
    "sequence_safe"
   ],
   "note": "All sequences, sustain ranges and numbers of steps; every history of calls is defined."
  },
  {
   "property": "C22",
   "status": "partial",
   "theorems": [
    "envelope_attack_partial",
    "envelope_release_partial",
    "envelope_steps_refuted",
    "envelope_values_refuted"
   ],
   "note": "Finding: step counts of 2^31 and more become negative and the phase ends after one tick; values of 2^30 and more overflow. Proved for all smaller ones, from any state."
  },
  {
   "property": "C23",
   "status": "partial",
   "theorems": [
    "envelope_terminates_partial",
    "envelope_defined",
    "envelope_timeless_rejected",
    "envelope_long_sustain_refuted"
   ],
   "note": "Termination proved for all step counts and values up to signed overflow, which is excluded for values below 2^30 and steps below 2^31. Finding: a sustain part of 2^32 steps is rejected although it takes time."
  },
  {
   "property": "C24",
   "status": "partial",
   "theorems": [
    "copy_independent_partial",
    "copy_independent_refuted",
    "instrument_copy_refuted"
   ],
   "note": "Finding: a copied sequence points to the values of its original, so it dangles when the original is disposed; a copied instrument is not cleared."
  },
  {
   "property": "C25",
   "status": "partial",
   "theorems": [
    "instrument_end_partial",
    "instrument_release_empty",
    "instrument_muted_silent",
    "instrument_defined",
    "instrument_end_refuted",
    "instrument_no_end_refuted"
   ],
   "note": "Finding: releasing a muted instrument again reports the end a second time; an instrument whose sequences all end with the attack call never reports its end."
  },
  {
   "property": "C26",
   "status": "partial",
   "theorems": [
    "adsr_shape_partial",
    "adsr_shape_refuted"
   ],
   "note": "Proved for times below 2^31 with the exact values of attack and decay. Finding: an attack of 2^31+1 ticks is over after one tick."
  },
  {
   "property": "C27",
   "status": "proved",
   "theorems": [
    "normalize_spec"
   ],
   "note": "The loudest frame becomes exactly -32767 if negative and at least 32766 if positive; a positive frame beside a frame -32768 may become 0."
  },
  {
   "property": "C28",
   "status": "proved",
   "theorems": [
    "unsigned_frames",
    "unsigned_scale",
    "codes_spec"
   ],
   "note": "All four widths, all channel counts."
  },
  {
   "property": "C29",
   "status": "partial",
   "theorems": [
    "signed_frames_partial",
    "signed_frames_refuted"
   ],
   "note": "Finding: negative bytes are multiplied as unsigned numbers, -1 becomes 1806. Proved for non-negative bytes."
  },
  {
   "property": "C30",
   "status": "partial",
   "theorems": [
    "reversed_frames_partial",
    "native_frames",
    "reversed_frames_refuted"
   ],
   "note": "Finding: the low byte is shifted out when bytes are swapped, so every frame loses its low 8 bits. Proved: exactly that is lost; native order is right."
  },
  {
   "property": "C31",
   "status": "partial",
   "theorems": [
    "convert_fills_partial",
    "convert_bounds_partial",
    "convert_fills_refuted",
    "convert_bounds_refuted"
   ],
   "note": "Findings: frames narrower than a byte with several channels leave reported frames uninitialised; 2^29 bytes wrap the size and write outside. Proved below 2^28 bytes."
  },
  {
   "property": "C32",
   "status": "partial",
   "theorems": [
    "sustain_range_partial",
    "sustain_range_null",
    "sustain_range_refuted"
   ],
   "note": "Proved for every pair of positions and all lengths below 2^31-1, where it overflows. The same code normalises the range of a unit."
  },
  {
   "property": "C33",
   "status": "partial",
   "theorems": [
    "users_partial",
    "users_disposed",
    "users_refuted",
    "users_refuted_dispose"
   ],
   "note": "Finding: when two adjacent users reject new data after one that accepts, the rest of the list is lost. Proved for every other history."
  },
  {
   "property": "C34",
   "status": "partial",
   "theorems": [
    "attributes_partial",
    "attributes_no_phases",
    "attributes_volume",
    "attributes_refused",
    "waveforms_refused",
    "attributes_refuted"
   ],
   "note": "Finding: INT_MIN as period or sample period overflows. Proved for every other value, attribute and state; with an empty sample range there is no largest phase and only negative ones are clamped (attributes_no_phases)."
  },
  {
   "property": "C35",
   "status": "partial",
   "theorems": [
    "tables_partial",
    "tables_refuted"
   ],
   "note": "Finding: releasing a unit whose sample with sustain range was replaced by a waveform moves the phase out of the table. Proved for all histories without the uses listed at uop_careful."
  },
  {
   "property": "C36",
   "status": "proved",
   "theorems": [
    "noise_cycle",
    "noise_run"
   ],
   "note": ""
  },
  {
   "property": "C37",
   "status": "proved",
   "theorems": [
    "run_partition"
   ],
   "note": "Waveforms and samples."
  },
  {
   "property": "C38",
   "status": "partial",
   "theorems": [
    "pulses_computed",
    "pulses_partial",
    "pulses_refuted"
   ],
   "note": "Finding: jumps of more than 32767 (e.g. duty cycle 8 to 9 at full volume) are truncated to 16 bits and leave an offset. Proved: the values computed always sum up to the level; they arrive unchanged when waveform and level are within a range of 32767."
  },
  {
   "property": "C39",
   "status": "proved",
   "theorems": [
    "channels_same_wave",
    "channels_same_phase"
   ],
   "note": ""
  },
  {
   "property": "C40",
   "status": "partial",
   "theorems": [
    "samples_partial",
    "samples_refuted_channels",
    "samples_refuted_palindrome",
    "samples_refuted_release",
    "samples_refuted_sustain"
   ],
   "note": "Four findings of reads outside of the frames. Proved for all histories without these uses (uop_careful)."
  },
  {
   "property": "C41",
   "status": "partial",
   "theorems": [
    "range_start_partial",
    "range_start_refuted"
   ],
   "note": "Finding: a forward range set before playing starts at its last frame. Proved for reversed ranges."
  },
  {
   "property": "C42",
   "status": "partial",
   "theorems": [
    "repeat_partial",
    "repeat_callback_partial",
    "repeat_refuted"
   ],
   "note": "Finding: the answer of the callback is dropped, the sample always ends. Proved: without callback the repeat mode decides."
  },
  {
   "property": "C43",
   "status": "partial",
   "theorems": [
    "pointers_range_partial",
    "pointers_sustain_partial",
    "pointers_refuted"
   ],
   "note": "Finding: BKGetPtr on a unit calls the setter. Proved for BKUnitGetPtr and ranges."
  },
  {
   "property": "C44",
   "status": "partial",
   "theorems": [
    "track_volume_partial",
    "track_silent_partial",
    "track_monotone_partial",
    "track_panning",
    "track_silent_refuted"
   ],
   "note": "Proved for reachable tracks without rounding left by a slide; panning for all levels. Refuted: after a slide downwards volume 0 still gives a volume above 0 (track_silent_refuted)."
  },
  {
   "property": "C45",
   "status": "partial",
   "theorems": [
    "effect_readback_partial",
    "effect_scaled_partial",
    "effect_readback_refuted"
   ],
   "note": "Slides and portamento read back; tremolo and vibrato read back scaled by the shift of their state (refuted)."
  },
  {
   "property": "C46",
   "status": "proved",
   "theorems": [
    "note_readback",
    "note_defined"
   ],
   "note": ""
  },
  {
   "property": "C47",
   "status": "partial",
   "theorems": [
    "arpeggio_cycles_partial",
    "arpeggio_index",
    "arpeggio_negative_refuted",
    "arpeggio_start_refuted"
   ],
   "note": "Proved for tracks without instrument and effects after setting arpeggio and divider; the index is inside the arpeggio in all reachable states. Refuted: a negative count copies out of bounds, and a new note starts with the last note of the arpeggio as long as the divider has not fired."
  },
  {
   "property": "C48",
   "status": "partial",
   "theorems": [
    "dividers_partial",
    "dividers_refuted"
   ],
   "note": "Proved for dividers from 1 on; refuted for 0, which is accepted and fires only once."
  },
  {
   "property": "C49",
   "status": "partial",
   "theorems": [
    "pitch_next_note_partial",
    "pitch_refuted"
   ],
   "note": "The pitch counts for the next note; refuted for the playing note."
  },
  {
   "property": "C50",
   "status": "partial",
   "theorems": [
    "C50_generate_exact_partial",
    "C50_history_sizes_partial",
    "C50_early_refuted",
    "C50_gap_refuted"
   ],
   "note": "For programs which attach clocks before they generate and always generate with an attached track. Refuted without: frames generated without a track put the clocks out of step."
  },
  {
   "property": "C51",
   "status": "partial",
   "theorems": [
    "C51_generate_split_partial",
    "C51_gap_refuted"
   ],
   "note": "For legal programs (ContextSpec.v: clocks are attached before the first frames, frames are asked for while a track is attached, by BKContextGenerate); up to 2^31 frames; the number of loop iterations is existentially quantified. Refuted for contexts which have been without tracks for a while."
  },
  {
   "property": "C52",
   "status": "partial",
   "theorems": [
    "C52_to_time_terminates_partial",
    "C52_no_clock_refuted"
   ],
   "note": "Terminates with a clock that was attached before the clocks started; blocks have at most 1024 frames and buffers at most 4095. Refuted without a clock: it never ends."
  },
  {
   "property": "C53",
   "status": "proved",
   "theorems": [
    "C53_channels_together"
   ],
   "note": ""
  },
  {
   "property": "C54",
   "status": "partial",
   "theorems": [
    "context_dispose_partial",
    "context_dispose_refuted"
   ],
   "note": "Finding: dividers of tracks stay attached to the disposed context. Proved: clocks and units are detached, other contexts keep theirs."
  },
  {
   "property": "C55",
   "status": "partial",
   "theorems": [
    "C55_round_trip_partial",
    "C55_big_endian_refuted",
    "C55_append_mode_refuted",
    "C55_overwrite_refuted"
   ],
   "note": "Little endian systems, files positioned at their end, less than 2^31 bytes, complete last frame. Refuted: on big endian systems audioFormat is not reversed and the reader rejects the file; in files opened for appending the sizes become frames; in files with bytes behind the position frames appended after terminating get lost."
  },
  {
   "property": "C56",
   "status": "partial",
   "theorems": [
    "C56_quantised_partial",
    "C56_append_mode_refuted",
    "C56_big_endian_refuted"
   ],
   "note": "Same limits as C55; refuted in the same way for files opened for appending and on big endian systems."
  },
  {
   "property": "C57",
   "status": "partial",
   "theorems": [
    "C57_exchanged",
    "C57_format_refuted"
   ],
   "note": "Refuted: number of channels and sample rate are exchanged, for all data objects."
  },
  {
   "property": "C58",
   "status": "partial",
   "theorems": [
    "C58_size_field",
    "C58_riff_size_partial",
    "C58_riff_size_refuted"
   ],
   "note": "Proved for files which start at position 0. Refuted for others: the position is added to the size."
  },
  {
   "property": "C59",
   "status": "partial",
   "theorems": [
    "C59_read_frames_partial",
    "C59_read_frames_safe",
    "C59_overrun_refuted",
    "C59_silence_refuted",
    "C59_negative_refuted"
   ],
   "note": "Proved for data chunks of whole frames and less than 2^31 bytes. Refuted: incomplete last frames are stored beyond the array; missing frames of 8 bits are only half silenced; chunks from 2^31 bytes on announce a negative number of frames."
  },
  {
   "property": "C60",
   "status": "partial",
   "theorems": [
    "C60_header_total_partial",
    "C60_no_channels_refuted"
   ],
   "note": "Refuted: division by zero if the file says 0 channels; proved that nothing else goes wrong. Little endian systems."
  },
  {
   "property": "C61",
   "status": "partial",
   "theorems": [
    "C61_chunks_partial",
    "C61_odd_chunk_refuted",
    "C61_long_format_refuted"
   ],
   "note": "Proved for chunks of even size. Refuted: the padding of odd chunks is not skipped; format chunks with more than 16 bytes are not skipped."
  },
  {
   "property": "C62",
   "status": "partial",
   "theorems": [
    "C62_no_append_unreadable",
    "C62_no_append_refuted",
    "C62_empty_append_partial"
   ],
   "note": "Refuted: without a call to append the header is never written. With a call that appends nothing the file is valid."
  },
  {
   "property": "C63",
   "status": "partial",
   "theorems": [
    "C63_no_object",
    "C63_dispatch",
    "C63_init",
    "C63_no_function",
    "C63_destructor_at_most_once",
    "C63_dispose_any_times_partial",
    "C63_allocated_partial",
    "C63_dispose_twice_refuted",
    "C63_disposed_attr_refuted"
   ],
   "note": "Proved for objects in memory of the client and for one dispose of allocated objects. Refuted: a second dispose of an allocated object uses released memory; attribute access to a disposed object follows a null pointer."
  },
  {
   "property": "C64",
   "status": "partial",
   "theorems": [
    "C64_error_names",
    "C64_each_name",
    "C64_attribute_refuted",
    "C64_lookup_partial",
    "C64_outside_refuted",
    "C64_null_refuted"
   ],
   "note": "Proved exactly which values are safe. Refuted: values with a bit of the type below BK_RETURN_TYPE read outside the table; BK_RETURN_TYPE gives NULL."
  },
  {
   "property": "C65",
   "status": "partial",
   "theorems": [
    "attach_rate_partial",
    "attach_rate_refuted"
   ],
   "note": "Proved for notes set after attaching; refuted for a note set before, which keeps the period of the old sample rate."
  },
  {
   "property": "C66",
   "status": "partial",
   "theorems": [
    "C66_set_cond",
    "C66_set_cond_range",
    "C66_set",
    "C66_unset",
    "C66_cond",
    "C66_mask_refuted"
   ],
   "note": "All 32 bit values and masks. Refuted for masks which are expressions: the macros BKBitCond and BKBitCond2 do not put the mask into parentheses."
  },
  {
   "property": "C67",
   "status": "partial",
   "theorems": [
    "C67_stream_partial",
    "C67_stream_refuted"
   ],
   "note": "Finding: BKBufferShift clamps to whole frames, so a mixed range with a fractional end loses the fraction. Proved for ranges of whole frames (all calls made by BKContextGenerate)."
  },
  {
   "property": "C68",
   "status": "partial",
   "theorems": [
    "C68_slide_no_overflow_partial",
    "C68_interval_no_overflow_partial",
    "C68_slide_no_overflow_refuted"
   ],
   "note": "Finding: BK_STATE_MAX_STEPS itself overflows steps<<8. Proved for up to 65536 steps (all steps the track effects permit)."
  },
  {
   "property": "C69",
   "status": "partial",
   "theorems": [
    "context_attach_divider_partial",
    "context_attach_divider_rejects",
    "context_attach_divider_refuted"
   ],
   "note": "Finding: the result of the inner attach calls is ignored, so success is reported for a divider attached elsewhere. Proved for free dividers."
  },
  {
   "property": "C70",
   "status": "partial",
   "theorems": [
    "frames_memory_partial",
    "frames_memory_refuted_free",
    "frames_memory_refuted_leak"
   ],
   "note": "Findings: replacing copied frames by borrowed ones frees the memory of the caller; raw data loaded into an empty object, a second WAVE, and converting borrowed frames leak."
  },
  {
   "property": "C71",
   "status": "partial",
   "theorems": [
    "released_frames_partial",
    "released_frames_refuted"
   ],
   "note": "Finding: BKDataSetData and BKDataLoadRaw do not tell units that the frames moved."
  },
  {
   "property": "C72",
   "status": "proved",
   "theorems": [
    "instrument_slot_set",
    "instrument_slot_rejects"
   ],
   "note": ""
  },
  {
   "property": "C73",
   "status": "partial",
   "theorems": [
    "clear_forgets",
    "clear_refuted"
   ],
   "note": "Finding: a unit that is not attached keeps its sample. Proved for attached units."
  },
  {
   "property": "C74",
   "status": "partial",
   "theorems": [
    "track_safe_partial",
    "track_safe_refuted"
   ],
   "note": "Proved within the limits of top_ok; refuted for INT_MIN periods and dividers, arpeggio counts below 0, large arpeggio notes and vibrato depths, none of which are rejected."
  },
  {
   "property": "C75",
   "status": "partial",
   "theorems": [
    "track_attr_partial",
    "track_pitch_refuted"
   ],
   "note": "Eleven attributes of the track. Refuted for BK_PITCH, which cannot be read."
  },
  {
   "property": "C76",
   "status": "proved",
   "theorems": [
    "track_muted"
   ],
   "note": ""
  },
  {
   "property": "C77",
   "status": "proved",
   "theorems": [
    "track_clear"
   ],
   "note": ""
  },
  {
   "property": "C78",
   "status": "partial",
   "theorems": [
    "old_set_ptr_off",
    "old_set_ptr_refuted"
   ],
   "note": "Refuted: it passes a size of 0 and so switches the effect off."
  },
  {
   "property": "C79",
   "status": "partial",
   "theorems": [
    "volume_slide_partial",
    "volume_slide_refuted"
   ],
   "note": "For slides whose rounding is harmless (slide_good): all upward ones and downward ones of sufficient distance. Refuted for the others: from 1 to 0 in 256 steps the track keeps volume 1."
  },
  {
   "property": "C80",
   "status": "partial",
   "theorems": [
    "C80_to_time_audio_refuted"
   ],
   "note": "Refuted: the last block is read up to the end of the longest pulse, before the other units have written theirs."
  },
  {
   "property": "C81",
   "status": "partial",
   "theorems": [
    "C81_to_time_returns_partial",
    "C81_to_time_frames_refuted"
   ],
   "note": "The value returned is the number of frames delivered. Refuted that these are the frames up to the time: the last block has more or, above 1024 frames, less."
  },
  {
   "property": "C82",
   "status": "partial",
   "theorems": [
    "C82_track_reset_refuted"
   ],
   "note": "Refuted: the time of the unit is set to 0, behind the context, and wraps around with the next call; the track is silent for a long time (shown for 510 frames)."
  },
  {
   "property": "C83",
   "status": "partial",
   "theorems": [
    "C83_generate_terminates_partial",
    "C83_late_clock_refuted"
   ],
   "note": "Clocks are attached before they start. Refuted for a clock attached while the clocks run: if its first tick lies before the time of the context but after the time of the audio, BKContextGenerate never returns."
  },
  {
   "property": "C84",
   "status": "proved",
   "theorems": [
    "C84_time"
   ],
   "note": "Legal histories as in ContextSpec.v: clocks are attached before the first frames, frames are asked for with BKContextGenerate while a track is attached."
  },
  {
   "property": "C85",
   "status": "partial",
   "theorems": [
    "C85_interrupted_partial",
    "C85_truncated_partial",
    "C88_terminate_first_refuted"
   ],
   "note": "Little endian systems, files positioned at their end; whole frames; the first call appends. Refuted if the first call terminates the file: nothing can be read."
  },
  {
   "property": "C86",
   "status": "partial",
   "theorems": [
    "C86_header_again_partial",
    "C86_header_again_refuted"
   ],
   "note": "Refuted for files with sample rate 0."
  },
  {
   "property": "C87",
   "status": "proved",
   "theorems": [
    "C87_front_kept"
   ],
   "note": ""
  },
  {
   "property": "C88",
   "status": "partial",
   "theorems": [
    "C88_pieces_partial",
    "C88_terminate_first_refuted"
   ],
   "note": "Little endian systems, files positioned at their end, first call appends. Refuted if the first call terminates the file."
  },
  {
   "property": "C89",
   "status": "partial",
   "theorems": [
    "C89_copied_partial",
    "C89_copied_empty",
    "C89_copy_never_disposed",
    "C89_leak_refuted",
    "C89_single_frame_refuted"
   ],
   "note": "Attributes and frames are copied into own memory. Refuted: a copy does not count as initialised, so disposing it never releases its frames; objects with a single frame cannot be copied."
  },
  {
   "property": "C90",
   "status": "partial",
   "theorems": [
    "C90_copied_partial",
    "C90_borrowed_partial",
    "C90_size_refuted",
    "C90_own_frames_refuted"
   ],
   "note": "Proved below 2^31 frames. Refuted: the size wraps from 2^31 frames on; frames of the object itself are read after they were released."
  },
  {
   "property": "C91",
   "status": "partial",
   "theorems": [
    "C91_levels",
    "C91_number_of_levels",
    "C91_no_smoothing",
    "C91_inverted",
    "C91_raised",
    "C91_order",
    "C91_sign_refuted",
    "C91_silence_refuted"
   ],
   "note": "The levels are proved for all frames and dithers. Refuted that values are near the frames: they come out with the opposite sign and, up to 8 bits, in the positive range only, so silence becomes half the maximum. The number of frames to smooth over only scales the dither."
  },
  {
   "property": "C92",
   "status": "partial",
   "theorems": [
    "C92_recorded_partial",
    "C92_broken_file_refuted"
   ],
   "note": "Same limits as C55 and C59."
  },
  {
   "property": "C93",
   "status": "partial",
   "theorems": [
    "C93_raw_partial",
    "C93_size_refuted"
   ],
   "note": "Proved below 2^32 bytes, refuted for more: only the remainder of the size is used."
  },
  {
   "property": "C94",
   "status": "partial",
   "theorems": [
    "C94_set_partial",
    "C94_kept",
    "C94_fewer_frames_refuted"
   ],
   "note": "Proved when the range is set. Refuted: setting fewer frames keeps the range."
  },
  {
   "property": "C95",
   "status": "partial",
   "theorems": [
    "C95_rejected_partial",
    "C95_no_frames_refuted"
   ],
   "note": "Refuted for missing frames which should not be copied: the frames are released before the call is rejected. Failing allocations are the subject of C108."
  },
  {
   "property": "C96",
   "status": "proved",
   "theorems": [
    "C96_accurate",
    "C96_exact",
    "C96_negative"
   ],
   "note": "The 64-bit variant; every finite number whose product is below 2^62 units, denormal numbers included. Negative times give the negated result. Infinite numbers and NaN are not modelled."
  },
  {
   "property": "C97",
   "status": "partial",
   "theorems": [
    "C97_period",
    "C97_variants",
    "C97_period32",
    "C97_ticks_per_second",
    "C97_drift",
    "C97_negative_refuted"
   ],
   "note": "Proved for all rates. Refuted that both variants agree for negative times: the 32-bit variant converts a negative fraction to an unsigned type, which is undefined."
  },
  {
   "property": "C98",
   "status": "proved",
   "theorems": [
    "C98_any_kernel",
    "C98_harmonic",
    "C98_sinc",
    "C98_no_clipping"
   ],
   "note": "Ranges of whole frames, as all calls of BKContextGenerate (see C67)."
  },
  {
   "property": "C99",
   "status": "partial",
   "theorems": [
    "C99_one_source_partial",
    "C99_two_tracks_refuted",
    "C99_two_sources_refuted"
   ],
   "note": "Proved for one source whose levels are at most 32767 apart. Refuted for two tracks: at full volume and with the same note the signed 32-bit accumulator overflows, which is undefined."
  }
 ]
}