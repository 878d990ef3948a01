{"id": "C01", "title": "Pulse writes stay inside the channel buffer", "statement": "Adding a pulse or a frame to a channel buffer at any time value never writes outside the buffer's storage, whatever the buffer's current time is.", "quantifier": "every buffer state, every 32-bit time argument, every pulse amplitude, both pulse kernels", "why_tests_cant": "2^64 combinations of buffer time and pulse time, including wrap-around of the 12.20 time sum; an out-of-bounds write may be silent in a test.", "anchors": ["src/BKBuffer.h:BKBufferAddPulse", "src/BKBuffer.h:BKBufferAddFrame", "src/BKBuffer.c"]}
{"id": "C02", "title": "Mixing is order independent", "statement": "The content of a channel after several units have mixed pulses into it does not depend on the order in which the pulses were added, and pulses at one position add linearly in their amplitude.", "quantifier": "every list of pulses (times, amplitudes) and every permutation of it", "why_tests_cant": "The number of interleavings of units is unbounded.", "anchors": ["src/BKBuffer.h:BKBufferAddPulse"]}
{"id": "C03", "title": "Chunked reads give the same audio as one read", "statement": "Reading n frames and then m frames from a buffer delivers exactly the same samples and leaves the same buffer as reading n+m frames at once, as long as n+m frames are available.", "quantifier": "every buffer content, every split n+m, every filter state", "why_tests_cant": "All splits of all buffers cannot be enumerated; the high-pass accumulator carries state between reads.", "anchors": ["src/BKBuffer.c:BKBufferRead"]}
{"id": "C04", "title": "Output samples saturate instead of wrapping", "statement": "Every sample delivered by a read is a 16-bit value; it equals the filtered amplitude when that fits in 16 bits and otherwise has the same sign and magnitude at least 32766.", "quantifier": "every 32-bit amplitude value", "why_tests_cant": "Overflow needs rare combinations of many loud units; tests use moderate volumes.", "anchors": ["src/BKBuffer.c:BKBufferRead"]}
{"id": "C05", "title": "Frame accounting of a read", "statement": "A read returns at most the requested number of frames and the number of readable frames reported afterwards is lower by exactly the number returned.", "quantifier": "every buffer state reachable by add/end/shift/read histories and every requested size", "why_tests_cant": "Only visible when a unit's period crosses the end of the generated range, for particular histories of calls.", "anchors": ["src/BKBuffer.c:BKBufferRead", "src/BKBuffer.h:BKBufferEnd", "src/BKBuffer.h:BKBufferShift", "src/BKBuffer.h:BKBufferSize", "src/BKContext.c:BKContextRead"]}
{"id": "C06", "title": "Constant gain of a pulse", "statement": "The total deflection a pulse leaves in a buffer is the same for every sub-sample position of the pulse, so an oscillator does not drift when its edges fall at different fractions of a frame.", "quantifier": "every pulse time, every amplitude, both kernels", "why_tests_cant": "Tests listen to a few periods; the claim is about all 2^20 fractional positions.", "anchors": ["src/BKBuffer.c:BKBufferPulseKernels", "src/BKBuffer.h:BKBufferAddPulse"]}
{"id": "C07", "title": "32-bit and 64-bit time agree", "statement": "The structure based time arithmetic used on 32-bit systems computes the same sums, differences and comparisons as the integer based one used on 64-bit systems.", "quantifier": "all pairs of normalised times whose results are representable, all 12.20 offsets", "why_tests_cant": "Only one variant is compiled on a given machine, so no single test run can compare them.", "anchors": ["src/BKTime.h"]}
{"id": "C08", "title": "Making a time from samples and fraction", "statement": "Constructing a time from a number of samples and a fraction yields the time with exactly that sample count and fraction.", "quantifier": "every sample count and every fraction below one sample", "why_tests_cant": "Fails only for large sample counts and only on 64-bit builds.", "anchors": ["src/BKTime.h:BKTimeMake", "src/BKTime.h:BKTimeGetTime", "src/BKTime.h:BKTimeGetFrac"]}
{"id": "C09", "title": "Note to period conversion is total, bounded and monotone", "statement": "Converting any note to a period at any permitted sample rate stays inside the period table, never overflows, clamps notes outside of the range, is non-increasing in the note and non-decreasing in the sample rate.", "quantifier": "every 32-bit note, every sample rate from 16000 to 96000", "why_tests_cant": "2^32 notes times 80001 rates; interpolation between table entries can break monotonicity at any boundary.", "anchors": ["src/BKTone.c:BKTonePeriodLookup"]}
{"id": "C10", "title": "Note to sample-speed conversion is total, bounded and monotone", "statement": "Converting any note to a sample playback speed stays inside the table, clamps, is non-decreasing, gives speed 1.0 for the reference note and exactly doubles or halves per octave at table notes up to rounding.", "quantifier": "every 32-bit note", "why_tests_cant": "2^32 inputs; interpolation across octave boundaries.", "anchors": ["src/BKTone.c:BKLog2PeriodLookup"]}
{"id": "C11", "title": "A slide ends exactly on its target", "statement": "After setting a target value with n steps and stepping n times the slide reports exactly the target value, and it stays there for all further steps.", "quantifier": "every start state, every target in the declared value range, every step count the track API permits", "why_tests_cant": "Rounding errors of the fixed point increment depend on all three numbers.", "anchors": ["src/BKInterpolation.c:BKSlideStateSetValueAndSteps", "src/BKInterpolation.h:BKSlideStateStep", "src/BKInterpolation.h:BKSlideStateGetValue"]}
{"id": "C12", "title": "A slide is monotone and never overshoots", "statement": "While sliding, the reported value moves monotonically from the start value to the target and never leaves the interval between them.", "quantifier": "every start, target, step count and every intermediate step", "why_tests_cant": "Needs all intermediate steps of all slides.", "anchors": ["src/BKInterpolation.c:BKSlideStateSetValueAndSteps", "src/BKInterpolation.h:BKSlideStateStep"]}
{"id": "C13", "title": "Interval oscillation stays within its depth and repeats", "statement": "A tremolo/vibrato oscillation with depth d and n steps stays within -d..d and returns to the same value after a full cycle.", "quantifier": "every depth in range, every step count, every number of elapsed steps", "why_tests_cant": "Unbounded number of steps; rounding accumulates per phase.", "anchors": ["src/BKInterpolation.c:BKIntervalStateSetDeltaAndSteps", "src/BKInterpolation.c:BKIntervalStateStep"]}
{"id": "C14", "title": "Clocks tick exactly at multiples of their period", "statement": "A clock attached before generation starts fires exactly at times 0, p, 2p, ... of generated audio, independently of other clocks and of how the generation is split into calls.", "quantifier": "every set of clocks with positive periods, every sequence of run lengths", "why_tests_cant": "Unbounded histories and clock combinations.", "anchors": ["src/BKContext.c:BKClocksAdvance", "src/BKContext.c:BKContextRun", "src/BKClock.c:BKClockTick", "src/BKClock.c:BKClockAdvance"]}
{"id": "C15", "title": "A divider fires on every n-th tick beginning with the first", "statement": "A divider with value n fires on ticks 0, n, 2n, ...; a callback that writes a new divider value changes the distance to the following firing to that value (at least 1).", "quantifier": "every divider value, every tick number, every sequence of values written by callbacks", "why_tests_cant": "Unbounded tick histories.", "anchors": ["src/BKClock.c:BKDividerTick", "src/BKClock.c:BKDividerInit"]}
{"id": "C16", "title": "Clock list behaves like a sequence without duplicates", "statement": "Attaching (at the end, at the front or before another clock) and detaching clocks keeps the context's clock list equal to the obvious list; the list can be walked in both directions and each clock occurs at most once.", "quantifier": "every sequence of attach and detach operations on any number of clocks", "why_tests_cant": "Pointer list histories are unbounded.", "anchors": ["src/BKClock.c:BKClockAttach", "src/BKClock.c:BKClockDetach"]}
{"id": "C17", "title": "Divider and unit lists behave like sequences without duplicates", "statement": "Attaching and detaching dividers (to a group) and units (to a context) keeps the doubly linked list equal to the list of currently attached objects in attach order.", "quantifier": "every sequence of attach and detach operations", "why_tests_cant": "Pointer list histories are unbounded.", "anchors": ["src/BKClock.c:BKDividerAttachToGroup", "src/BKClock.c:BKDividerDetach", "src/BKUnit.c:BKUnitAttach", "src/BKUnit.c:BKUnitDetach"]}
{"id": "C18", "title": "Disposing a clock terminates and detaches its dividers", "statement": "Disposing a clock returns and afterwards no divider is attached to it.", "quantifier": "every number of dividers attached to the clock", "why_tests_cant": "A non-terminating call cannot be observed as a test result, only as a timeout.", "anchors": ["src/BKClock.c:BKClockDisposeObject"]}
{"id": "C19", "title": "A rejected clock attach has no effect", "statement": "If attaching a clock returns an error, the clock is still unattached and the contexts are unchanged.", "quantifier": "every clock, context and reference clock", "why_tests_cant": "Effect only shows in later operations on other clocks.", "anchors": ["src/BKClock.c:BKClockAttach"]}
{"id": "C20", "title": "Clocks attached or reset while running keep ticking periodically", "statement": "A clock that is attached or reset when audio has already been generated ticks at once and then every period.", "quantifier": "every context time, every period", "why_tests_cant": "Depends on elapsed time; failure shows as a clock that never fires again.", "anchors": ["src/BKContext.c:BKClocksAdvance", "src/BKClock.c:BKClockReset", "src/BKClock.c:BKClockAttach"]}
{"id": "C21", "title": "Value sequences play attack, loop sustain, then release", "statement": "A value sequence plays its values from the beginning, repeats its sustain part until released, then plays the rest exactly once and finishes; the value index is always valid.", "quantifier": "every sequence, sustain range, number of steps and moment of release", "why_tests_cant": "Unbounded histories of steps and phase changes.", "anchors": ["src/BKSequence.c:BKSequenceFuncSimpleStep", "src/BKSequence.c:BKSequenceFuncSimpleSetPhase"]}
{"id": "C22", "title": "Envelopes reach each phase value after exactly its steps", "statement": "An envelope phase with n>0 steps ends at exactly its target value after n ticks; intermediate values lie between start and target.", "quantifier": "every envelope, every phase, every starting value", "why_tests_cant": "Depends on rounding for every pair of values and step counts.", "anchors": ["src/BKSequence.c:BKSequenceFuncEnvelopeStep", "src/BKSequence.c:BKSequenceFuncEnvelopeSetPhase"]}
{"id": "C23", "title": "Envelope ticks always terminate", "statement": "Every tick of an envelope accepted by the constructor terminates; constructors reject envelopes whose sustain part would loop without consuming time.", "quantifier": "every list of phases with arbitrary step counts, every state", "why_tests_cant": "Non-termination cannot be tested.", "anchors": ["src/BKSequence.c:BKSequenceFuncEnvelopeCreate", "src/BKSequence.c:BKSequenceFuncEnvelopeStep"]}
{"id": "C24", "title": "Copied sequences and instruments are independent", "statement": "A copied sequence owns its values: disposing the original leaves the copy usable.", "quantifier": "every sequence and every order of disposals", "why_tests_cant": "Use after free is not reliably observable.", "anchors": ["src/BKSequence.c:BKSequenceFuncSimpleCopy", "src/BKSequence.c:BKSequenceFuncEnvelopeCopy", "src/BKInstrument.c:BKInstrumentInitCopy"]}
{"id": "C25", "title": "Instrument end is reported once", "statement": "When all sequences of a released instrument have finished the instrument reports the mute event exactly once, never before and never again until the next attack.", "quantifier": "every instrument, every tick and phase history", "why_tests_cant": "Unbounded histories.", "anchors": ["src/BKInstrument.c:BKInstrumentStateTick", "src/BKInstrument.c:BKInstrumentStateSetPhase"]}
{"id": "C26", "title": "ADSR envelopes have the documented shape", "statement": "An ADSR envelope rises from 0 to full volume in the attack steps, decays to the sustain level in the decay steps, holds it until release and reaches 0 after the release steps.", "quantifier": "every attack, decay, sustain and release value and every hold time", "why_tests_cant": "Four free parameters plus the hold duration.", "anchors": ["src/BKInstrument.c:BKInstrumentSetEnvelopeADSR", "src/BKSequence.c"]}
{"id": "C27", "title": "Normalising sample data", "statement": "Normalising scales the loudest frame to full scale without overflow, keeps signs and ordering, and leaves silent data unchanged.", "quantifier": "every list of 16-bit frames", "why_tests_cant": "2^(16 n) inputs.", "anchors": ["src/BKData.c:BKDataNormalize"]}
{"id": "C28", "title": "Unsigned bit conversion maps the full input range to the positive output range", "statement": "Loading unsigned 1, 2, 4 or 8 bit data yields one frame per code, in the order of the bits from the highest to the lowest and of the bytes; code 0 becomes 0, the largest code becomes the largest frame value, and larger codes become strictly larger frames.", "quantifier": "every byte string shorter than 2^28 bytes whose length is a multiple of the number of channels", "why_tests_cant": "Every bit pattern and packing must be right.", "anchors": ["src/BKData.c:BKDataConvertFromBits", "src/BKData.c:BKDataSetData"]}
{"id": "C29", "title": "Signed bit conversion keeps sign and order", "statement": "Converting signed 8-bit data keeps the sign of every frame and is monotone.", "quantifier": "every byte", "why_tests_cant": "Tests with positive samples only do not notice.", "anchors": ["src/BKData.c:BKDataConvertFromBits"]}
{"id": "C30", "title": "16-bit data with reversed byte order is byte-swapped", "statement": "Loading 16-bit data with the reverse-endian option yields the same frames as loading the byte-swapped data without it.", "quantifier": "every byte string", "why_tests_cant": "All 65536 sample values.", "anchors": ["src/BKData.c:BKDataConvertFromBits"]}
{"id": "C31", "title": "Conversion fills exactly the reported frames", "statement": "After loading raw data every one of the reported frames has been written and nothing beyond the allocated frames.", "quantifier": "every data size, channel count and bit width", "why_tests_cant": "Uninitialised or overflowing memory is not reliably visible.", "anchors": ["src/BKData.c:BKDataSetData", "src/BKData.c:BKDataConvertFromBits"]}
{"id": "C32", "title": "Sustain and sample ranges are normalised", "statement": "Setting a sample sustain range always leaves a range within the sample with start not after end; negative positions count from the end.", "quantifier": "every pair of 32-bit positions and every sample length", "why_tests_cant": "2^64 pairs.", "anchors": ["src/BKData.c:BKDataSetPtrObj", "src/BKUnit.c:BKUnitUpdateSampleSustainRange"]}
{"id": "C33", "title": "Data object tracks exactly its users", "statement": "A data object's list of users is exactly the set of units that use it; when some users reject new data they are removed and the others stay.", "quantifier": "every number of users and every accept/reject pattern", "why_tests_cant": "2^n patterns of accept/reject.", "anchors": ["src/BKData.c:BKDataStateSetData", "src/BKData.c:BKDataResetStates"]}
{"id": "C34", "title": "Unit attributes are clamped and read back", "statement": "After setting any unit attribute to any value the attribute reads back as the value clamped to its documented range, and other attributes are unchanged (a change of waveform, duty cycle, phase wrap or release may reset the phase). Attributes that cannot be set are refused without effect.", "quantifier": "every attribute, every 32-bit value, every unit state", "why_tests_cant": "2^32 values per attribute.", "anchors": ["src/BKUnit.c:BKUnitSetAttr", "src/BKUnit.c:BKUnitGetAttr"]}
{"id": "C35", "title": "Oscillators never read outside their wave tables", "statement": "However attributes are changed and audio is generated, the phase used to index the square, triangle, sawtooth, sine or custom waveform table is inside that table.", "quantifier": "every sequence of attribute changes and runs", "why_tests_cant": "Out-of-bounds reads are silent; histories are unbounded.", "anchors": ["src/BKUnit.c:BKUnitRunWaveform", "src/BKUnit.c:BKUnitSetAttr", "src/BKUnit.c:BKUnitUpdateSampleSustainRange"]}
{"id": "C36", "title": "The noise generator never gets stuck", "statement": "The noise generator state never becomes zero and runs through a cycle of maximal length 65535 before repeating.", "quantifier": "every non-zero 16-bit state, any number of steps", "why_tests_cant": "65535 states times any number of steps.", "anchors": ["src/BKUnit.c:BKUnitRunWaveformNoise"]}
{"id": "C37", "title": "Oscillator output does not depend on run partitioning", "statement": "Running a waveform unit to time t1 and then to t2 adds the same pulses and leaves the same state as running it to t2 at once.", "quantifier": "every unit state, every t1 <= t2", "why_tests_cant": "Unbounded partitions.", "anchors": ["src/BKUnit.c:BKUnitRun", "src/BKUnit.c:BKUnitRunWaveform"]}
{"id": "C38", "title": "Pulses telescope to the current level", "statement": "The sum of all pulses a unit has added to a channel equals the level it currently outputs, so no offset accumulates.", "quantifier": "every unit history of runs, volume and waveform changes", "why_tests_cant": "Unbounded histories.", "anchors": ["src/BKUnit.c:BKUnitRunWaveform", "src/BKUnit.c:BKUnitRunSample"]}
{"id": "C39", "title": "Channels of a unit stay in phase", "statement": "All audible channels of a unit see the same waveform phase sequence, and the phase after a run does not depend on how many or which channels are audible as long as one is.", "quantifier": "every volume vector, number of channels, state and end time", "why_tests_cant": "2^8 silent patterns times all states.", "anchors": ["src/BKUnit.c:BKUnitRunWaveform"]}
{"id": "C40", "title": "Sample playback stays inside the sample", "statement": "Playing a sample in any repeat mode, direction, speed and sustain range never reads outside of the frames of the sample.", "quantifier": "every sample length, range, period, repeat mode and sustain range", "why_tests_cant": "Out-of-bounds reads are silent.", "anchors": ["src/BKUnit.c:BKUnitRunSample", "src/BKUnit.c:BKUnitResetSample", "src/BKUnit.c:BKUnitSetAttr"]}
{"id": "C41", "title": "A forward sample range starts at its first frame", "statement": "Setting a forward play range before the sample has been played makes playback start at the first frame of the range, and a reversed range at the last.", "quantifier": "every sample length and range", "why_tests_cant": "All ranges and phases.", "anchors": ["src/BKUnit.c:BKUnitUpdateSampleRange"]}
{"id": "C42", "title": "Sample callback decides about repetition", "statement": "When a sample callback is installed the sample is repeated exactly if the callback asks for it.", "quantifier": "every callback behaviour", "why_tests_cant": "Callback behaviour is arbitrary.", "anchors": ["src/BKUnit.c:BKUnitCallSampleCallback", "src/BKUnit.c:BKUnitResetSample"]}
{"id": "C43", "title": "Getting a pointer attribute does not modify the object", "statement": "Reading a pointer attribute of a unit with the generic getter returns the value and does not change the unit.", "quantifier": "every unit state and attribute", "why_tests_cant": "Requires comparing complete object states for all attributes.", "anchors": ["src/BKUnit.c:BKUnitGetPtrSize", "src/BKObject.c:BKGetPtr"]}
{"id": "C44", "title": "Track volume computation is bounded, monotone and silent at zero", "statement": "The channel volumes a track gives to its unit are always between 0 and the master volume, do not overflow, are non-decreasing in track volume and master volume, and are 0 when either is 0; panning lowers only the opposite channel.", "quantifier": "every volume, master volume, panning, instrument volume/panning and tremolo value in range", "why_tests_cant": "Product of six 16-bit ranges.", "anchors": ["src/BKTrack.c:BKTrackUpdateUnitVolume"]}
{"id": "C45", "title": "Track effects read back as set", "statement": "Getting an effect's parameters right after setting them returns the values that were set, clamped to their range.", "quantifier": "every effect, every parameter value", "why_tests_cant": "2^96 parameter triples.", "anchors": ["src/BKTrack.c:BKTrackSetEffect", "src/BKTrack.c:BKTrackGetEffect"]}
{"id": "C46", "title": "Notes are clamped and released notes are reported", "statement": "Setting a note clamps it to the valid range and reads back as such; after release or mute the note reads back as released.", "quantifier": "every 32-bit note value and every track state", "why_tests_cant": "2^32 values times states.", "anchors": ["src/BKTrack.c:BKTrackSetNote", "src/BKTrack.c:BKTrackGetAttrInt"]}
{"id": "C47", "title": "Arpeggio cycles through its notes without leaving them", "statement": "With an arpeggio of k notes the ticks apply notes 0,1,...,k-1 cyclically and the index always stays below k even when the arpeggio is changed while playing.", "quantifier": "every arpeggio array, every history of changes and ticks", "why_tests_cant": "Unbounded histories; memory errors are silent.", "anchors": ["src/BKTrack.c:BKTrackArpeggioSetNotes", "src/BKTrack.c:BKTrackArpeggioTick", "src/BKTrack.c:BKTrackSetPtrObj"]}
{"id": "C48", "title": "Track dividers fire every n-th tick", "statement": "The arpeggio, instrument and effect dividers of a track fire on the first tick and then on every n-th tick for any divider value that can be set.", "quantifier": "every divider value and number of ticks", "why_tests_cant": "Unbounded ticks; misbehaviour for particular values.", "anchors": ["src/BKTrack.c:BKDividerStateTick", "src/BKTrack.c:BKTrackSetAttrInt"]}
{"id": "C49", "title": "Pitch changes take effect", "statement": "Changing a track's pitch changes the frequency of the playing note by the next tick.", "quantifier": "every pitch value and track state", "why_tests_cant": "Depends on the update flags left by any previous history.", "anchors": ["src/BKTrack.c:BKTrackSetAttrInt", "src/BKTrack.c:BKTrackUpdateUnit"]}
{"id": "C50", "title": "Generating returns exactly the requested frames", "statement": "With at least one attached track, generating n frames returns n and fills n frames, for every history of previous calls.", "quantifier": "every n, every history of attach, detach and generate calls", "why_tests_cant": "Depends on the whole history.", "anchors": ["src/BKContext.c:BKContextGenerate", "src/BKContext.c:BKContextEnd", "src/BKContext.c:BKContextRun"]}
{"id": "C51", "title": "Generated audio does not depend on call sizes", "statement": "Generating n frames and then m frames delivers the same audio as generating n+m frames in one call.", "quantifier": "every context state with attached units and clocks, every split", "why_tests_cant": "All splits of all audio lengths.", "anchors": ["src/BKContext.c:BKContextGenerate"]}
{"id": "C52", "title": "Generating to a time terminates and never overruns the buffers", "statement": "Generating up to a time terminates, delivers blocks of at most 1024 frames and never lets more frames accumulate than the channel buffer can hold.", "quantifier": "every context, every end time, every write callback", "why_tests_cant": "Non-termination and overrun depend on clock periods and history.", "anchors": ["src/BKContext.c:BKContextGenerateToTime"]}
{"id": "C53", "title": "All channels advance together", "statement": "All channel buffers of a context always have the same time and capacity, so a read returns the same number of frames for every channel.", "quantifier": "every history of runs and reads", "why_tests_cant": "Unbounded histories.", "anchors": ["src/BKContext.c:BKContextRead", "src/BKContext.c:BKContextEnd", "src/BKUnit.c:BKUnitRun"]}
{"id": "C54", "title": "Disposing a context detaches all tracks completely", "statement": "After disposing a context its tracks can be disposed or attached to another context and then behave like fresh ones.", "quantifier": "every number of tracks and dividers", "why_tests_cant": "Dangling references are not reliably visible.", "anchors": ["src/BKContext.c:BKContextDisposeObject", "src/BKTrack.c:BKTrackDetach", "src/BKClock.c:BKDividerAttachToGroup"]}
{"id": "C55", "title": "16-bit WAVE files round-trip", "statement": "Reading a WAVE file produced by the writer returns the same channel count, sample rate and frames, however the frames were appended in pieces.", "quantifier": "every list of frame blocks, channel count 1..65535, every sample rate", "why_tests_cant": "Unbounded data and partitions.", "anchors": ["src/BKWaveFileWriter.c", "src/BKWaveFileReader.c"]}
{"id": "C56", "title": "8-bit WAVE files round-trip up to quantisation", "statement": "Writing with 8 bits and reading back returns each frame with its low 8 bits cleared.", "quantifier": "every list of frames", "why_tests_cant": "Unbounded data.", "anchors": ["src/BKWaveFileWriter.c:BKWaveFileWriterAppendFrames", "src/BKWaveFileReader.c:BKWaveFileReaderReadFrames"]}
{"id": "C57", "title": "Writing a data object records its format", "statement": "Writing a data object to a WAVE file records the data's channel count and the given sample rate.", "quantifier": "every channel count and sample rate", "why_tests_cant": "The repository's tests do not use this function.", "anchors": ["src/BKWaveFileWriter.c:BKWaveFileWriteData"]}
{"id": "C58", "title": "RIFF size field covers exactly the written chunk", "statement": "The RIFF chunk size written on termination equals the number of bytes following it, also if the WAVE data starts at a non-zero file offset and if frames are appended after an earlier termination.", "quantifier": "every file offset and every sequence of append/terminate calls", "why_tests_cant": "Tests only write at offset 0.", "anchors": ["src/BKWaveFileWriter.c:BKWaveFileWriterTerminate", "src/BKWaveFileWriter.c:BKWaveFileWriterWriteHeader"]}
{"id": "C59", "title": "Reading frames stays inside the announced buffer", "statement": "Reading frames writes exactly the announced number of frames times channels, filling missing data with silence.", "quantifier": "every file content", "why_tests_cant": "Heap overruns by crafted files.", "anchors": ["src/BKWaveFileReader.c:BKWaveFileReaderReadFrames", "src/BKWaveFileReader.c:BKWaveFileReaderReadHeader"]}
{"id": "C60", "title": "Header parsing is total", "statement": "Parsing any byte string as WAVE header terminates with either an error or a format with at least one channel.", "quantifier": "every byte string", "why_tests_cant": "All inputs.", "anchors": ["src/BKWaveFileReader.c:BKWaveFileReaderReadHeader"]}
{"id": "C61", "title": "Unknown chunks before the data chunk are skipped", "statement": "A reader finds the data chunk behind any number of other chunks following the format chunk.", "quantifier": "every list of extra chunks", "why_tests_cant": "Unbounded chunk lists.", "anchors": ["src/BKWaveFileReader.c:BKWaveFileReaderReadHeader"]}
{"id": "C62", "title": "An empty recording is a valid file", "statement": "A writer that is terminated without any appended frames leaves a readable WAVE file with zero frames.", "quantifier": "every writer configuration", "why_tests_cant": "Boundary case of the append history.", "anchors": ["src/BKWaveFileWriter.c:BKWaveFileWriterTerminate"]}
{"id": "C63", "title": "Dispose is idempotent and attribute access on invalid objects fails cleanly", "statement": "Disposing an object any number of times runs its destructor once; attribute access without handler returns an invalid-state error.", "quantifier": "every object state and call history", "why_tests_cant": "Histories of dispose/init calls.", "anchors": ["src/BKObject.c"]}
{"id": "C64", "title": "Status names are defined for every code", "statement": "Asking for the name of any status value returns the name of that status or a fallback, never reading outside the name table.", "quantifier": "every 32-bit status", "why_tests_cant": "2^32 values.", "anchors": ["src/BKBase.c:BKStatusGetName"]}
{"id": "C65", "title": "Attaching uses the context's sample rate", "statement": "A track attached to a context plays its note at the frequency given by that context's sample rate.", "quantifier": "every note, every pair of contexts with different sample rates", "why_tests_cant": "Requires re-attaching histories.", "anchors": ["src/BKTrack.c:BKTrackAttach", "src/BKTrack.c:BKTrackUpdateUnitNote"]}
{"id": "C66", "title": "Conditional bit macros", "statement": "The branch-free flag macros set the masked bits when the condition is 1, clear them when it is 0 and leave all other bits unchanged.", "quantifier": "every 32-bit variable and mask", "why_tests_cant": "2^64 combinations.", "anchors": ["src/BKBase.h:BKBitSetCond", "src/BKBase.h:BKBitCond"]}
{"id": "C67", "title": "A channel's audio is the filtered sum of all its pulses", "statement": "Over any history of mixing pulses, ending and shifting the mixed range and reading, the samples delivered by a channel are the filtered, saturated sum of all pulses at their absolute times, independent of how mixing and reading are interleaved.", "quantifier": "every history of rounds (pulses, range length, frames read) within the buffer's capacity, every kernel", "why_tests_cant": "Unbounded histories; small timing losses are inaudible in a test.", "anchors": ["src/BKBuffer.h:BKBufferAddPulse", "src/BKBuffer.h:BKBufferEnd", "src/BKBuffer.h:BKBufferShift", "src/BKBuffer.c:BKBufferRead"]}
{"id": "C68", "title": "Slides and intervals never overflow", "statement": "Any history of slide and interval operations with values in the declared range and any accepted step count runs without integer overflow.", "quantifier": "every history of set, step, halt and get operations", "why_tests_cant": "Overflow depends on combinations of shift, distance and step count.", "anchors": ["src/BKInterpolation.c:BKSlideStateSetValueAndSteps", "src/BKInterpolation.c:BKIntervalStateSetDeltaAndSteps", "src/BKInterpolation.h:BKSlideStateStep", "src/BKInterpolation.h:BKSlideStateGetValue"]}
{"id": "C69", "title": "Attaching a divider reports failure", "statement": "BKContextAttachDivider returns 0 only if the divider ends up in the requested group of the context; a divider already attached elsewhere is reported with an error.", "quantifier": "all dividers and contexts in any attachment state", "why_tests_cant": "tests attach fresh dividers to one context", "anchors": ["src/BKContext.c:BKContextAttachDivider", "src/BKClock.c:BKDividerAttachToGroup"]}
{"id": "C70", "title": "Memory of frames is released exactly once", "statement": "Every block of memory a data object allocates for its frames is released once, at the latest when the object is disposed, and memory of the caller is never released.", "quantifier": "every history of setting, loading, normalising, converting and disposing", "why_tests_cant": "Leaks and double frees are not visible in the frames.", "anchors": ["src/BKData.c:BKDataSetFrames", "src/BKData.c:BKDataSetData", "src/BKData.c:BKDataLoadWAVE", "src/BKData.c:BKDataConvert", "src/BKData.c:BKDataDisposeObject"]}
{"id": "C71", "title": "Units do not play released frames", "statement": "A unit playing a data object only reads frames that have not been released, also after the frames of the object are replaced.", "quantifier": "every history of changing the frames of an object in use", "why_tests_cant": "Reading released memory often goes unnoticed.", "anchors": ["src/BKData.c:BKDataSetData", "src/BKUnit.c:BKUnitSampleDataStateCallback"]}
{"id": "C72", "title": "Setting a sequence of an instrument affects only its slot", "statement": "Setting the values of a sequence replaces exactly that sequence of the instrument, an empty list of values removes it, and a slot that does not exist is refused without any effect.", "quantifier": "every instrument, slot and list of values", "why_tests_cant": "Slots are independent for all instruments, not only for the tested ones.", "anchors": ["src/BKInstrument.c:BKInstrumentSetSequence"]}
{"id": "C73", "title": "Clearing a unit forgets its sample", "statement": "BKUnitClear on a unit leaves it without waveform data or sample, with empty ranges, no repeating, no phase wrapping and no pending release, and keeps volumes, muting, duty cycle, period and callback.", "quantifier": "every state of a unit reachable by careful use", "why_tests_cant": "Leftovers of an earlier sample show up only for particular histories before the call.", "anchors": ["src/BKUnit.c:BKUnitClear"]}
{"id": "C74", "title": "Calls on a track within their limits are never undefined", "statement": "Initialising a track with any waveform and then making any calls on it, ticking and running it, in any order, never overflows, never reads or writes outside of memory, never divides by zero and never uses a missing object, as long as arguments keep to the limits of their types and documented ranges.", "quantifier": "every initial waveform and every finite history of calls with every argument", "why_tests_cant": "histories of calls are unbounded, and the state of a track combines four effects, an arpeggio, an instrument, three dividers and a unit", "anchors": ["src/BKTrack.c:381-1111", "src/BKUnit.c"]}
{"id": "C75", "title": "Track attributes read back as set and do not disturb each other", "statement": "An attribute set with BKSetAttr is read by BKGetAttr as the value set, clamped to its range, and every other attribute of the track reads as before.", "quantifier": "every track attribute, every value, every reachable track", "why_tests_cant": "needs every pair of attributes in every state", "anchors": ["src/BKTrack.c:676-842"]}
{"id": "C76", "title": "A muted track adds no pulses", "statement": "After BK_NOTE_MUTE, or BK_NOTE_RELEASE without instrument and sustained sample, ticking and running a track adds no pulse to any channel until a call changes the track.", "quantifier": "every track state, every number and order of ticks and runs", "why_tests_cant": "unbounded playing after the mute, with effects, arpeggios and instruments still ticking", "anchors": ["src/BKTrack.c:266-380", "src/BKTrack.c:587-645"]}
{"id": "C77", "title": "Clearing a track forgets note, instrument, arpeggio and effects", "statement": "After BKTrackClear the track is muted, has no note, instrument, arpeggio or effect, and volume, panning, pitches and dividers have their initial values, while the master volume stays.", "quantifier": "every reachable track", "why_tests_cant": "every history before the clear", "anchors": ["src/BKTrack.c:453-508"]}
{"id": "C78", "title": "The deprecated pointer setter does the same as its replacement", "statement": "BKTrackSetPtr sets effects and arpeggios the same way as BKSetPtr.", "quantifier": "every effect, every value, every track", "why_tests_cant": "all values of all effects", "anchors": ["src/BKTrack.c:1052-1055", "src/BKTrack.h:243"]}
{"id": "C79", "title": "A volume slide reaches its target with its last step", "statement": "With a volume slide of n steps and an effect divider m a new volume is reached with the n-th tick of the divider and stays there.", "quantifier": "every number of steps, divider, volume and number of ticks", "why_tests_cant": "65536 steps times all dividers and volumes", "anchors": ["src/BKTrack.c:266-310", "src/BKInterpolation.h:150-240"]}
{"id": "C80", "title": "Generating to a time gives the audio of generating frames", "statement": "The blocks delivered by generating up to a time are the frames which generating the same number of frames would give.", "quantifier": "every context with attached tracks, every end time", "why_tests_cant": "All notes, clock periods and end times.", "anchors": ["src/BKContext.c:301-333", "src/BKBuffer.c:131-169"]}
{"id": "C81", "title": "Generating to a time delivers the frames up to that time", "statement": "Generating up to a time delivers exactly the frames up to that time and returns their number.", "quantifier": "every context with attached tracks, every end time", "why_tests_cant": "All notes, clock periods and end times.", "anchors": ["src/BKContext.c:301-333"]}
{"id": "C82", "title": "A track plays after it is reset", "statement": "A track which is reset while it is attached and set up again plays like one which was cleared.", "quantifier": "every time of the reset and every size of the following calls", "why_tests_cant": "Depends on the times at which a track is reset and frames are generated.", "anchors": ["src/BKTrack.c:453-459", "src/BKUnit.c:1257-1265"]}
{"id": "C83", "title": "Generating frames always ends", "statement": "A call to generate frames ends for every history of calls; what can go wrong is a value out of range or a call of a track or a clock, never the loop itself.", "quantifier": "every history of calls, every number of frames", "why_tests_cant": "Non-termination depends on the whole history.", "anchors": ["src/BKContext.c:262-299", "src/BKContext.c:378-436"]}
{"id": "C84", "title": "Clocks stay in step with the audio", "statement": "Generating n frames advances the time of the context, less the time it is ahead of the audio, by exactly n frames; all clocks have the time of the context and no unit is behind it.", "quantifier": "every history of calls in which clocks are attached before the first frames and frames are asked for by BKContextGenerate while a track is attached, every n", "why_tests_cant": "Unbounded histories and all fractions of clock periods.", "anchors": ["src/BKContext.c:339-436"]}
{"id": "C85", "title": "Interrupted recordings can be read", "statement": "A file whose writer was neither terminated nor disposed, because the program ended, can be read: the frames up to the last termination, or all frames if there was none, also if the last bytes are missing.", "quantifier": "every history of appending and terminating, every number of whole frames left", "why_tests_cant": "Depends on the whole history of calls and on where the file is cut off.", "anchors": ["src/BKWaveFileWriter.c:165-250", "src/BKWaveFileReader.c:170-187"]}
{"id": "C86", "title": "Reading the header of a WAVE file again gives the same", "statement": "After a successful call BKWaveFileReaderReadHeader gives the same format with every further call and does not move the file.", "quantifier": "every file", "why_tests_cant": "All files.", "anchors": ["src/BKWaveFileReader.c:93-194"]}
{"id": "C87", "title": "A recording leaves the bytes in front of it alone", "statement": "Writing a WAVE file into an open file never changes a byte in front of the position at which the writer was initialised.", "quantifier": "every file, position, format and history of calls", "why_tests_cant": "All positions, formats and histories, including files opened for appending and files longer than the recording.", "anchors": ["src/BKWaveFileWriter.c:87-250"]}
{"id": "C88", "title": "A WAVE file depends only on the frames", "statement": "The bytes of a finished file are the same however the frames were appended in pieces and whenever the file was terminated in between.", "quantifier": "every two histories which append the same frames", "why_tests_cant": "All ways of dividing all lists of frames.", "anchors": ["src/BKWaveFileWriter.c:165-250"]}
{"id": "C89", "title": "A copied data object is independent and can be disposed", "statement": "BKDataInitCopy gives an object with the same attributes and frames in memory of its own; changing or disposing the original does not affect it and BKDispose releases its frames.", "quantifier": "every data object", "why_tests_cant": "Memory that is not released is not visible to a test, and all objects are meant.", "anchors": ["src/BKData.c:189-208", "src/BKObject.c:150-174"]}
{"id": "C90", "title": "Setting frames keeps exactly the frames given", "statement": "BKDataSetFrames with copy stores a copy of all frames, releases frames copied before and touches nothing else; without copy it uses the given frames.", "quantifier": "every data object, all frames and channel counts", "why_tests_cant": "All sizes, including those beyond 2^31 bytes, and frames which are the object's own.", "anchors": ["src/BKData.c:334-384"]}
{"id": "C91", "title": "Reducing bits keeps the signal on 2^n levels", "statement": "BKDataConvert gives values on at most 2^targetNumBits levels inside of 16 bits, each near its frame, for whatever random numbers.", "quantifier": "all frames, bits, thresholds and random numbers", "why_tests_cant": "Depends on random numbers and all frames.", "anchors": ["src/BKData.c:698-819"]}
{"id": "C92", "title": "Loading a recorded WAVE file gives the recorded frames", "statement": "BKDataLoadWAVE of a file made by the writer gives an object with the recorded frames, channels and sample rate.", "quantifier": "every recording", "why_tests_cant": "All recordings and formats.", "anchors": ["src/BKData.c:624-660", "src/BKWaveFileReader.c:93-300"]}
{"id": "C93", "title": "Loading raw data equals setting its bytes", "statement": "BKDataLoadRaw has the effect of BKDataSetData with the bytes from the position of the file on and leaves the file at its end.", "quantifier": "every file and position", "why_tests_cant": "All files and sizes.", "anchors": ["src/BKData.c:586-622"]}
{"id": "C94", "title": "The sustain range of a data object lies inside its frames", "statement": "Whatever calls are made, BK_SAMPLE_SUSTAIN_RANGE reads a range inside of the frames of the object.", "quantifier": "every history of setting frames and ranges", "why_tests_cant": "Depends on the order of calls.", "anchors": ["src/BKData.c:262-384"]}
{"id": "C95", "title": "A rejected call leaves a data object as it was", "statement": "If setting or loading frames returns an error the object keeps its frames and can still be used and disposed.", "quantifier": "every call that fails", "why_tests_cant": "All ways to fail.", "anchors": ["src/BKData.c:334-384", "src/BKData.c:542-660"]}
{"id": "C96", "title": "BKTimeFromSeconds is accurate", "statement": "For every sample rate a context accepts, `BKTimeFromSeconds` turns a time in seconds into the time in units of 2^-20 samples, cut off to whole units. The result differs from the exact product by at most a relative rounding error of 2^-53 before it is cut off. Times which are a whole number of units below 2^53 are converted exactly.", "quantifier": "all sample rates from 16000 to 96000, all times which a double holds and which are not negative and below 2^62 units", "why_tests_cant": "Tests compare a few times at the usual rates; the rounding of a product of doubles depends on each pair of rate and time.", "anchors": ["src/BKContext.h:207-229"]}
{"id": "C97", "title": "Default clock ticks 240 times a second", "statement": "At every sample rate the period of the default clock is the 240th part of a second cut off to units of 2^-20 samples, in spite of 1/240 not being a double. So 240 ticks never take longer than a second and are short by less than 240 units; over a day the clock gains at most 20 samples. Builds with 64-bit times and builds with two 32-bit parts use the same period, and agree for every other time given in seconds as well.", "quantifier": "all sample rates from 16000 to 96000, all numbers of days, all times which are not negative and below 2^31 - 1 samples", "why_tests_cant": "The rate at which truncation of an inexact quotient goes wrong by one unit cannot be found by testing a few sample rates, and the two variants are never built together.", "anchors": ["src/BKContext.c:41-53", "src/BKContext.h:207-229", "src/BKBase.h:118"]}
{"id": "C98", "title": "Sources with bounded levels never overflow a channel", "statement": "Several sources add pulses to a channel, each in the order of its own times, mixed with those of the others in any way and read in pieces of any size. Each source keeps the level its pulses add up to between a lower and an upper limit. If these limits are together at most 33745 apart (27339 for the sinc kernel), no frame and no accumulator of the channel ever overflows, so the audio is the filtered sum of all pulses. Up to 8436 the output is not even clipped.", "quantifier": "all numbers of sources, all limits, all histories of any length with whole frames, both kernels and in general all kernels with rows of equal sum", "why_tests_cant": "The worst case is a pattern of pulses which resonates with the ripple of the kernel; testing cannot find the highest value of the accumulator over all patterns and all lengths.", "anchors": ["src/BKBuffer.h:150-172", "src/BKBuffer.c:29-169"]}
{"id": "C99", "title": "Loud tracks are limited, not wrapped", "statement": "However loud the tracks of a context are and however many are mixed, values beyond the range of a sample are limited to the range; mixing is defined for every volume the tracks accept.", "quantifier": "all contexts and tracks", "why_tests_cant": "It needs notes which coincide at full volume; signed overflow is silent in most builds.", "anchors": ["src/BKBuffer.c:131-169", "src/BKBuffer.h:150-172", "src/BKUnit.c:1181-1218"]}
{"id": "C100", "title": "Programs with quiet waveform tracks never go wrong", "statement": "A program initialises a context, attaches clocks and tracks that play waveforms, calls attributes, effects, arpeggios, instruments and custom waveforms on them directly and from callbacks of clocks, changes the clock period, detaches tracks, generates frames and resets, in any order. If the arguments are in range and the master volumes of the tracks attached since the last reset add up to at most 16383 (13669 with the sinc kernel), no call overflows, accesses memory out of bounds, divides by zero or runs forever, and every call to generate returns exactly the frames it was asked for in every channel.", "quantifier": "all such programs of any length, all numbers of channels, sample rates, clock periods up to 2^41 frames, callbacks and up to 2^40 frames between resets", "why_tests_cant": "The result composes every layer of the library over unbounded histories; a test executes one program, and signed overflow in the mixing stage is silent.", "anchors": ["src/BKContext.c:262-299", "src/BKContext.c:335-479", "src/BKClock.c:214-376", "src/BKTrack.c:200-560", "src/BKUnit.c:700-900", "src/BKBuffer.c:29-169"]}
{"id": "C101", "title": "Silence follows", "statement": "After a source stops, the channel returns to silence: whatever was played before and however loud, all samples from 8128 frames after the last range with pulses on are exactly 0, not merely small and not a remaining offset.", "quantifier": "all kernels of both kinds and in general all kernels whose values are in range, all histories of pulses and ranges, all sizes of reads", "why_tests_cant": "Tests look at the tail of some sounds; the slowest decay and the rounding of the filter for negative values decide whether an offset of -1 remains for ever.", "anchors": ["src/BKBuffer.c:131-169", "src/BKBuffer.h:116-172"]}
{"id": "C102", "title": "Tracks do not disturb each other", "statement": "Taking all calls on some tracks out of a program, also those made by callbacks of clocks, does not change the other tracks: at the end they are in the same state, at the same time, with the same clocks. So a track sounds the same whatever is played next to it, whichever track is attached first.", "quantifier": "all programs that attach, detach and call tracks, attach clocks, change the period, the kernel, generate and reset, all choices of tracks, all callbacks", "why_tests_cant": "A track is affected by others through shared clocks, dividers, the time of the context and the order of events; tests compare a few mixes.", "anchors": ["src/BKContext.c:160-299", "src/BKContext.c:458-479", "src/BKTrack.c:1009-1065"]}
{"id": "C103", "title": "Mixing is superposition", "statement": "The audio of a program is the sum of the audio of two groups of its tracks played alone, in every channel and at every frame: where samples are not limited they differ by at most 1 downwards and 2 upwards, however long the program is. The rounding of the filter does not accumulate.", "quantifier": "all programs as in C102 which always generate with a track of both groups attached, all groups, all lengths", "why_tests_cant": "Rounding errors of a recursive filter accumulate over time; a test sees a fixed length.", "anchors": ["src/BKBuffer.c:131-169", "src/BKBuffer.h:150-172", "src/BKContext.c:160-299"]}
{"id": "C104", "title": "Instruments know exactly the tracks which use them", "statement": "Tracks and instruments may be initialised, set, cleared, detached and disposed of in any order, also instruments which are in use. No call reaches an object which is gone. Afterwards an instrument lists exactly the tracks which use it, each once, and a track has an instrument exactly when it is listed there; tracks of a disposed instrument have none and go on without one.", "quantifier": "all histories of initialising, setting, unsetting, clearing, detaching and disposing, with notes, ticks and changes of sequences in between, all numbers of tracks and instruments", "why_tests_cant": "Dangling pointers in doubly linked lists depend on the order of unlinking; tests do a few orders.", "anchors": ["src/BKInstrument.c:60-113", "src/BKInstrument.c:225-300", "src/BKTrack.c:44-62", "src/BKTrack.c:459-508", "src/BKTrack.c:557-674"]}
{"id": "C105", "title": "Sequences of instruments are released once and not used afterwards", "statement": "Sequences are in memory exactly as long as they are in a slot of an instrument. Replacing a sequence while tracks play it, or disposing of the instrument, releases it once and no track uses it afterwards: tracks always have the sequences of their instrument, or none. Setting a sequence changes only its slot, and nothing at all when it fails.", "quantifier": "all histories as in C104, all slots, successful and failing creations", "why_tests_cant": "Use after free shows only in some orders of setting, ticking and disposing.", "anchors": ["src/BKInstrument.c:90-108", "src/BKInstrument.c:147-205", "src/BKInstrument.c:273-300"]}
{"id": "C106", "title": "A program sounds the same however its frames are asked for", "statement": "Two programs which make the same calls after the same numbers of frames, but generate the frames in calls of other sizes, give the same frames in every channel and leave the context in the same state. This includes calls from callbacks of clocks, resets and changes of clock period and kernel, and calls for 0 frames.", "quantifier": "all programs as in C50, all ways of cutting their frames into calls; for programs as in C100 also that both run without error", "why_tests_cant": "There are exponentially many ways to cut a program into calls, and block borders interact with clocks, pulses and pending samples.", "anchors": ["src/BKContext.c:233-299", "src/BKContext.c:329-373", "src/BKBuffer.h:150-172"]}
{"id": "C107", "title": "Objects whose initialisation failed can be disposed", "statement": "If a function that initialises an object reports an error, the object can be disposed, or was not touched at all; nothing is accessed through a null pointer and no memory is lost.", "quantifier": "every answer of the allocator, every number of channels of contexts, every file and number of bits of wave writers", "why_tests_cant": "Unit tests cannot make the allocator refuse a chosen allocation, and the clean-up after errors is the path which is never run.", "anchors": ["/repo/src/BKContext.c:55-127", "/repo/src/BKObject.c:26-73", "/repo/src/BKObject.c:150-180", "/repo/src/BKBuffer.c:116-129", "/repo/src/BKWaveFileWriter.c:87-121"]}
{"id": "C108", "title": "A refused allocation changes nothing", "statement": "If an allocation of a call on a data object is refused, the call returns an error; the object and all memory are as before the call, so that it can be used and disposed as before. The buffer used to load raw frames is always released.", "quantifier": "every answer of the allocator, memory, data object, call (setting, loading, normalising, converting) with all arguments", "why_tests_cant": "The allocator would have to refuse each single allocation in each state; what must not happen is a lost or twice released block, which no return value shows.", "anchors": ["/repo/src/BKData.c:141-160", "/repo/src/BKData.c:334-384", "/repo/src/BKData.c:542-660", "/repo/src/BKData.c:778-819"]}
{"id": "C109", "title": "Notes are in tune", "statement": "A note has the frequency of equal temperament with 440 Hz for BK_A_3: the wave of a track with this note repeats with this frequency, and samples are played at the speed of their note.", "quantifier": "every note, sample rate from 16000 to 96000, waveform and state of a track without effects; notes between two semitones lie between them", "why_tests_cant": "Tests listen to a few notes at one sample rate; the tables were generated once and the fixed point arithmetic drops bits whose effect depends on the note.", "anchors": ["/repo/src/BKTone.c:31-101", "/repo/dev/tone_periods/tone_periods.c:29-85", "/repo/src/BKTrack.c:132-164"]}
{"id": "C110", "title": "A recording on a full disk keeps what fits", "statement": "If the disk gets full while a WAVE file is written and the header still fits, the client finds in the file the samples recorded up to the point where there was no room, in their format; the missing ones are silence or are not announced. The client is told about the loss.", "quantifier": "all formats, files written at their end, histories of appending and terminating, disk sizes and answers of fseek on the full disk", "why_tests_cant": "A full disk can occur after every byte of every write; tests of writing to a full disk are rare and cover a few sizes.", "anchors": ["src/BKWaveFileWriter.c:123-250", "src/BKWaveFileReader.c:196-275"]}
{"id": "C111", "title": "A waveform keeps exactly its frequency", "statement": "However the time is cut into runs and ends, the level of a channel of a unit is at every time the value its waveform has then: the waveform advances by one value each period, changes only there, and repeats after exactly the number of its values times the period. There is no drift.", "quantifier": "every waveform except noise (square with every duty cycle, triangle, sawtooth, sine, custom without phase wrap), period, phase, volume, number of rounds and their times; units which are not muted, in channels with a volume", "why_tests_cant": "Tests compare a short signal generated in one piece; a time lost or a value repeated at the border of two runs is inaudible once and adds up to a wrong frequency over hours.", "anchors": ["src/BKUnit.c:764-951", "src/BKUnit.c:957-1018", "src/BKUnit.c:1190-1226"]}
{"id": "C112", "title": "Units without tracks are heard as their waveforms", "statement": "Units which are attached to a new context without tracks are heard from the first frame on: every request for frames succeeds, and the frames of a channel are the waveforms of all units from their first value on, each value lasting a period, scaled by the volumes, added up and filtered as the buffer does. The portions in which the frames are requested make no difference.", "quantifier": "every number of channels, list of units with any waveform except noise, their periods, phases, volumes and last levels, list of request sizes; volumes together at most 16383; units not muted", "why_tests_cant": "Tests attach one or two units and generate some frames at once; the sum of all units in all channels at every later frame, for every division into requests, cannot be enumerated.", "anchors": ["src/BKUnit.c:260-283", "src/BKUnit.c:1190-1226", "src/BKContext.c:262-299", "src/BKContext.c:378-436", "src/BKContext.c:444-456"]}
{"id": "C113", "title": "Attached notes are heard as their waveforms", "statement": "Tracks which are attached to a new context with duty cycle, master volume, volume, panning and note are heard from the first frame on, as long as nothing is changed: every request for frames succeeds, and the frames of a channel are the sum of the waveforms of all tracks. Each value of a waveform lasts the period of the note divided by the phases of the waveform, its height is the product of both volumes, reduced on the side opposite of the panning if there are two channels. The volume of a triangle wave is ignored unless it is 0. Neither the ticks of the master clock nor the portions in which the frames are requested make a difference.", "quantifier": "every number of channels, sample rate, clock period, list of tracks with square, triangle, sawtooth or sine wave and all values of these attributes, list of request sizes; master volumes together at most 16383", "why_tests_cant": "Tests compare some frames of single notes with recordings; sums of tracks with all volumes, pannings and notes at every later frame, for every division into requests and every clock period, cannot be enumerated.", "anchors": ["src/BKTrack.c:83-130", "src/BKTrack.c:132-193", "src/BKTrack.c:446-451", "src/BKTrack.c:510-529", "src/BKTrack.c:676-770", "src/BKContext.c:262-299", "src/BKContext.c:339-436"]}
{"id": "C114", "title": "A sample is heard as its frames at the speed of its period", "statement": "A unit which plays a sample takes one step in each frame of the output: step j plays the frame at position p0 + (f0 + j * period) / 2^20, with the volume of the channel, from its moment to that of the next step. A repeated sample counts this position round its length, in both directions. A sample which is not repeated plays the frames up to the step which leaves the sample; then the unit is muted and the level stays. A palindrome with a whole number of frames per step plays to the last frame and back from it. However the time is divided into runs, nothing is added, skipped or repeated.", "quantifier": "all safe units playing a sample, all channels, volumes, speeds, positions, fractions and directions, all sequences of runs and ends", "why_tests_cant": "The position is carried over runs of any length as integer and fraction; tests hear a few frames of a few samples at one speed.", "anchors": ["src/BKUnit.c:1023-1107", "src/BKUnit.c:1113-1179"]}
{"id": "C115", "title": "A sustain range is held until the note is released", "statement": "A unit with a sustain range which is not released plays for ever inside of the range once it has reached it, repeating its frames at the pitch of the sample. When it is released without jumping, it goes on from where it is and plays the rest of the sample.", "quantifier": "all safe units playing a sample forwards from before the end of its sustain range, all speeds which step at most as many frames as there are behind the range, all sequences of runs and ends", "why_tests_cant": "That a note never ends while it is held is a claim on unbounded time; whether it holds depends on where the range ends and on the speed.", "anchors": ["src/BKUnit.c:1131", "src/BKUnit.c:1156-1175", "src/BKUnit.c:548-565"]}
{"id": "C116", "title": "Frames of a sample are heard evenly and without further settings", "statement": "Each frame of the output begins with the frame of the sample at the position of this moment, and a unit which has a sample, a volume and the default speed is heard.", "quantifier": "all safe units playing a repeated sample, all speeds, all sequences of runs", "why_tests_cant": "The moment of a frame inside of one output frame is lost in the averages tests look at, and tests of samples set all attributes.", "anchors": ["src/BKUnit.c:1134-1154", "src/BKUnit.c:1187"]}
{"id": "C117", "title": "Instrument sequences are heard in a track", "statement": "When an instrument with sequences of values is set on a silent track and a note is played, the note sounds with the values of the sequences: in tick k all sequences are at their value number (k - 1) / divider, the sustained part being repeated for as long as the note is held. The note ends by itself if and only if no sequence has a sustained part, one divided tick after the last value of the longest sequence. The pitch is the note plus the value of the pitch sequence, the volumes of the unit are those of the track multiplied by the volume sequence and moved by the panning sequence, and the duty cycle is the one of its sequence; slots without a sequence change nothing.", "quantifier": "all reachable silent tracks in a context without effects and arpeggio, all instruments with value sequences, all notes, all dividers, all numbers of ticks", "why_tests_cant": "A held note lasts for any number of ticks and four sequences of different lengths are combined; tests look at a few ticks of one sequence.", "anchors": ["src/BKTrack.c:233-237", "src/BKTrack.c:334-396", "src/BKTrack.c:557-585", "src/BKTrack.c:647-690", "src/BKSequence.c:35-135"]}
{"id": "C118", "title": "Released notes play the rest of their sequences and end", "statement": "When a note played with an instrument of value sequences is released, each sequence goes on with the values behind its sustained part, one value per divided tick, and stays at its last one; a sequence without such values keeps the value it had. The note is heard with these values until the longest of these parts has been played, and is silent from the next divided tick on. If no sequence has values behind its sustained part, the note ends with the release.", "quantifier": "all reachable silent tracks in a context without effects and arpeggio, all instruments with value sequences, all notes, all dividers, all numbers of ticks before and after the release", "why_tests_cant": "The end depends on the phase of the divider at the moment of the release and on four lengths; tests release at one moment and look at one sequence.", "anchors": ["src/BKTrack.c:575-579", "src/BKTrack.c:587-645", "src/BKInstrument.c:319-391", "src/BKSequence.c:35-135"]}
{"id": "C119", "title": "Melodies follow a simple player", "statement": "When notes are set, released and muted in any order between the ticks of a track with an instrument of value sequences, the track behaves like a player which knows only the note, whether it is held or was released and when, and the ticks since it was struck. A note set while another is held only changes the pitch and the sequences go on; any other note strikes again, from the beginning of the sequences and of the divider. Releasing plays the rest of the sequences once, releasing again or releasing silence changes nothing, and muting ends the note at once. The track is muted exactly when the player is silent, BK_NOTE gives the held note or -1, and after each tick the pitch, volumes and duty cycle are those of the note and the values of the player.", "quantifier": "all reachable silent tracks in a context without effects and arpeggio, all instruments with value sequences, all dividers, all finite lists of notes, releases, mutes and ticks", "why_tests_cant": "The state left by one note must not change the next one, whatever came before; tests play one or two notes in one order.", "anchors": ["src/BKTrack.c:233-237", "src/BKTrack.c:334-396", "src/BKTrack.c:557-645", "src/BKTrack.c:647-690", "src/BKInstrument.c:319-391", "src/BKSequence.c:35-135"]}
{"id": "C120", "title": "Melodies with an ADSR envelope follow a simple singer", "statement": "When notes are set, released and muted in any order between the ticks of a track with an ADSR instrument, the track behaves like a singer which knows only the note, whether it is held, fades or is silent, and where the envelope is. A struck note goes linearly from the level where the envelope was left to full volume in the attack ticks, then to the sustain volume in the decay ticks, and stays there; a release goes linearly from the level reached to zero in the release ticks, and the note ends exactly then. A note set while another is held changes only the pitch, a second release changes nothing, muting ends the note at once. The track is muted exactly when the singer is silent, BK_NOTE gives the held note or -1, and after each tick pitch and volumes are those of the note at the level of the envelope, always between 0 and BK_MAX_VOLUME.", "quantifier": "all attack, decay and release ticks below 2^31, all sustain volumes, all reachable silent tracks in a context without effects and arpeggio, all finite lists of notes, releases, mutes and ticks", "why_tests_cant": "Levels depend on when and where each earlier phase was interrupted, with rounding in each; tests listen to one envelope which runs through.", "anchors": ["src/BKInstrument.c:217-240", "src/BKInstrument.c:319-391", "src/BKSequence.c:137-330", "src/BKSequence.c:459-480", "src/BKTrack.c:233-237", "src/BKTrack.c:557-690"]}
{"id": "C121", "title": "Notes of an ADSR instrument fade in from silence", "statement": "A note of an ADSR instrument which is set while the track is silent fades in from zero: after n of its attack ticks the level is n parts of the full volume.", "quantifier": "all ADSR envelopes with an attack of more than one tick, all melodies before the note", "why_tests_cant": "Whether the level of an earlier note is left over depends on how that note ended; tests strike the first note of a track or one whose release has run through.", "anchors": ["src/BKInstrument.c:217-240", "src/BKInstrument.c:334-391", "src/BKSequence.c:137-330", "src/BKTrack.c:557-645"]}
{"id": "C122", "title": "After a reset of the context all clocks and dividers start over", "statement": "BKContextReset ('Reset all units, buffers and clocks') puts clocks and dividers back to where they were before the context ran: with the same lengths passed to BKContextEnd every clock ticks and every divider fires on the same times as after attaching them.", "quantifier": "all orders of attaching clocks, dividers and units; all lengths of runs before and after the reset; all periods and counts; all callbacks which move the next tick or change the count", "why_tests_cant": "which dividers start over depends on the list they are in, and whether a missing reset is heard depends on the number of ticks before it being no multiple of the count; a test with one run length can miss it", "anchors": ["src/BKContext.c:458-479", "src/BKContext.c:31-37", "src/BKClock.c:165-179", "src/BKClock.c:187-212", "src/BKClock.c:364-367"]}
{"id": "C123", "title": "What is heard after a reset does not depend on what was played before", "statement": "BKContextReset ('Reset all units, buffers and clocks') makes the context forget what was played: a song played after it gives exactly the same frames as the same song after any other history with the same settings (sample rate, clock periods, pulse kernels and of each track its waveform, master volume, panning mode and triangle flag), and playing a song again after a reset repeats its audio frame by frame.", "quantifier": "all histories before the reset (notes, instruments, effects, pan, volumes, slides, arpeggios, any time); all sequences of calls after it, all callbacks of clocks, all sizes read", "why_tests_cant": "a field that survives the reset is heard only if the song after it reads the field before setting it, which depends on the two songs; tests reset after one history", "anchors": ["src/BKContext.c:458-479", "src/BKTrack.c:453-500", "src/BKUnit.c:1228-1267", "src/BKBuffer.c:171-177"]}
{"id": "C124", "title": "A reset track reads as a new one", "statement": "After BKTrackReset every attribute, effect, instrument and arpeggio of a track reads as on a new track; the master volume, the waveform and the setting of the triangle wave are kept.", "quantifier": "all attached tracks after any history of calls, in the middle of notes, slides, arpeggios and instruments; every readable attribute", "why_tests_cant": "every attribute would have to be changed in every state, including while effects run, before each reset", "anchors": ["src/BKTrack.c:453-500", "src/BKUnit.c:1228-1267", "src/BKTrack.c:774-842"]}
{"id": "C125", "title": "Opposite panning exchanges the speakers", "statement": "In a context with two channels a track panned to one side sounds exactly as if panned to the opposite side with both channels exchanged: the opposite value of BK_PANNING gives the unit the same volumes for the other channel and changes nothing else, and notes panned to the opposite sides give the same frames in the opposite channels. In contexts with another number of channels panning makes no difference.", "quantifier": "all pannings, volumes, master volumes, notes and built-in tones; all reachable tracks with effects, arpeggios and instruments without panning sequence; all portions in which frames are requested", "why_tests_cant": "the symmetry has to hold for every pair of opposite values in every state of the other effects, and for every frame", "anchors": ["src/BKTrack.c:83-130", "src/BKTrack.c:548-555", "src/BKTrack.c:519-525"]}
