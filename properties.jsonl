{"id": "C01", "title": "Ring buffer is a bounded FIFO", "statement": "A ring buffer of capacity parameter n behaves exactly as a first-in first-out queue holding at most n-1 bytes: reads return written bytes in order and never a byte that was not written; a write on a full buffer is dropped and changes nothing; a read on an empty buffer reports empty and changes nothing; ready-to-read / ready-to-write / free-space count always agree with the queue content.", "quantifier": "every buffer size n >= 2 (and <= 65535), every finite sequence of write/read/query calls with arbitrary bytes", "why_tests_cant": "wrap-around positions times call interleavings are unbounded; tests sample one size and a few sequences", "anchors": ["src/comm/ring_buf.c:ring_buf_write", "src/comm/ring_buf.c:ring_buf_read", "src/comm/ring_buf.c:ring_buf_can_read", "src/comm/ring_buf.c:ring_buf_can_write", "src/comm/ring_buf.c:ring_buf_available"]}
{"id": "C02", "title": "Ring buffer is safe between one interrupt producer and one consumer", "statement": "When the serial receive interrupt writes while the main loop reads, and the interrupt may fire between any two memory accesses of the main-loop read (or query), every byte accepted is delivered exactly once, in order, and no byte is invented.", "quantifier": "every interleaving of producer writes with the individual memory accesses of consumer calls, every buffer size, every byte sequence", "why_tests_cant": "interrupt timing cannot be enumerated by unit tests, which call functions atomically", "anchors": ["src/comm/ring_buf.c", "src/comm/comm_serial.c:recv_ready_callback"]}
{"id": "C03", "title": "MIDI byte stream decoding is exact", "statement": "A stream that is the concatenation of complete channel messages, system messages and SysEx messages is dispatched as exactly those messages, in order, with the same channel and data values; messages the interface does not support (aftertouch, song position, real-time, tune request) cause no effect on sound other than being skipped.", "quantifier": "every finite sequence of well-formed MIDI messages (SysEx bodies up to the buffer limit), every data value", "why_tests_cant": "the set of message sequences is infinite; a desynchronised parser only shows on particular concatenations", "anchors": ["src/midi_rx.c:midi_rx_read", "src/midi_rx.c:read_message", "src/midi_rx.c:read_sysex"]}
{"id": "C04", "title": "Oversize SysEx never overruns the receive buffer", "statement": "Whatever bytes arrive after a SysEx start, at most 256 bytes are stored and handed to the SysEx handler, and the bytes beyond are not lost from the stream but parsed as subsequent input; unknown status bytes consume no more than themselves.", "quantifier": "every byte stream of every length", "why_tests_cant": "needs every length and content of SysEx, including unterminated ones", "anchors": ["src/midi_rx.c:read_sysex"]}
{"id": "C05", "title": "Serial path delivers messages end to end", "statement": "With bytes arriving by interrupt at arbitrary moments relative to the main loop's polling, and as long as the backlog never exceeds 511 bytes, the sequence of dispatched MIDI messages equals the sequence of messages sent.", "quantifier": "every arrival schedule, every well-formed message sequence", "why_tests_cant": "schedules are unbounded; tests deliver bytes synchronously", "anchors": ["src/comm/comm_serial.c", "src/comm/ring_buf.c", "src/comm/comm.c:comm_read", "src/midi_rx.c"]}
{"id": "C06", "title": "Pitch-and-cents arithmetic is exact", "statement": "Shifting a pitch by a number of cents yields a normalised result (0 <= cents < 100) whose total in cents is exactly the original plus the shift, provided the result stays within 0..255 semitones.", "quantifier": "every pitch 0..127 with cents 0..99, every shift that keeps the result in range", "why_tests_cant": "signed division and modulo boundaries (negative totals) are exactly where sampled tests miss", "anchors": ["src/pitchcents.c:pc_shift"]}
{"id": "C07", "title": "Pitch bend is centred, monotone and bounded by the bend range", "statement": "Applying a pitch bend of centre value leaves the note unchanged; a larger bend value never produces a lower pitch; the deviation never exceeds the configured range of semitones.", "quantifier": "every note 0..127, every bend 0..16383, every bend range 0..127 semitones", "why_tests_cant": "16384 x 128 x 128 combinations plus wrap-around below note 0", "anchors": ["src/pitchcents.c:pc_bend", "src/midi.c:effectivePitchCents"]}
{"id": "C08", "title": "FM frequency programming is monotone and fits the chip fields", "statement": "For notes within the FM range the (block, F-number) pair written to the YM2612 fits its 3-bit and 11-bit fields, and a higher pitch in cents never produces a lower oscillator frequency (F-number * 2^block); raising a note by 12 semitones exactly raises block by one with the same F-number.", "quantifier": "every pitch 11..106 and cents 0..99, both PAL and NTSC", "why_tests_cant": "requires comparing every adjacent pair of pitches over both tables and octave boundaries", "anchors": ["src/midi_fm.c:midi_fm_pitch_cents_to_freq_num", "src/midi_fm.c:midi_fm_pitch_to_octave", "src/synth.c:synth_pitch"]}
{"id": "C09", "title": "PSG tone programming is monotone and fits the chip field", "statement": "The PSG tone period for any pitch fits in 10 bits, never increases as pitch in cents increases, and is clamped (not wrapped) outside the playable range.", "quantifier": "every pitch 0..255, cents 0..99, both PAL and NTSC", "why_tests_cant": "adjacent-pair comparison over the whole domain including table edges", "anchors": ["src/midi_psg.c:tone_from_pitch_cents", "src/midi_psg.c:tone_for_midi_key"]}
{"id": "C10", "title": "FM loudness law", "statement": "For an FM voice, volume 127 with velocity 127 plays each operator at its preset total level, volume or velocity 0 gives maximum attenuation (127) on every output operator, loudness never decreases when volume or velocity increases, and operators that are not outputs of the algorithm are never altered by volume; the resulting level always fits 7 bits.", "quantifier": "every preset, algorithm, operator, volume and velocity", "why_tests_cant": "8 algorithms x 128^3 level combinations", "anchors": ["src/synth.c:volume_adjusted_total_level", "src/synth.c:is_output_operator", "src/synth.c:effective_total_level", "src/midi_fm.c:effective_volume"]}
{"id": "C11", "title": "PSG loudness law", "statement": "The attenuation sent to the PSG is always 0..15, is 15 (silence) when volume or velocity is 0 or the envelope step is silent, equals the envelope step at full volume and velocity, and never increases when volume or velocity increases.", "quantifier": "every volume, velocity and envelope byte", "why_tests_cant": "128 x 128 x 256 combinations and monotonicity over pairs", "anchors": ["src/midi_psg.c:effective_attenuation"]}
{"id": "C12", "title": "YM2612 register encoding is lossless and isolated", "statement": "Each FM parameter (algorithm, feedback, AMS, FMS, stereo, per-operator settings, frequency, key) is recoverable from the register bytes written for it, different (channel, operator, parameter group) triples use different registers, and an operation addressed to one FM channel never writes a register belonging to another channel.", "quantifier": "every channel 0..5, operator 0..3, every parameter value in range, every history of synthesizer calls", "why_tests_cant": "register collisions occur for specific channel/operator pairs; tests check a handful of literal writes", "anchors": ["src/synth.c:write_channel_reg", "src/synth.c:write_operator_reg", "src/synth.c:reg_operator_index", "src/synth.c:write_algorithm_and_feedback", "src/synth.h"]}
{"id": "C13", "title": "Synthesizer state mirrors the chip", "statement": "After any history of synthesizer calls, the YM2612 register contents implied by all writes so far equal the encoding of the parameters the synthesizer reports (the parameters the UI shows and dump/store use), for every channel register that the synthesizer manages.", "quantifier": "every finite history of synthesizer API calls", "why_tests_cant": "an out-of-sync shadow only appears after particular sequences of calls", "anchors": ["src/synth.c", "src/synth.c:synth_channel_parameters"]}
{"id": "C14", "title": "Changing the algorithm keeps channel volume in force", "statement": "After the algorithm of an FM channel is changed, every output operator of the new algorithm is attenuated according to the current channel volume (the level in the chip is the volume-adjusted level).", "quantifier": "every history of synthesizer calls", "why_tests_cant": "depends on the order in which volume and algorithm were set", "anchors": ["src/synth.c:synth_algorithm", "src/synth.c:synth_volume"]}
{"id": "C15", "title": "FM preset load and extract round-trip", "statement": "Loading a preset into an FM channel and then extracting the channel's parameters as a preset returns the same preset, and does not alter any other channel.", "quantifier": "every preset whose fields fit their widths, every channel, every prior state", "why_tests_cant": "all field values of a 45-field record", "anchors": ["src/synth.c:synth_preset", "src/synth.c:synth_extract_preset", "src/synth.c:preset_to_channel"]}
{"id": "C16", "title": "YM2612 writes always own the Z80 bus, and the PCM driver is never starved", "statement": "Every YM2612 register write made by the synthesizer happens while the 68000 holds the Z80 bus; whenever DAC mode is enabled the bus is free between operations so the PCM driver runs; whenever DAC mode is disabled the bus is held.", "quantifier": "every history of synthesizer API calls including DAC enable/disable", "why_tests_cant": "ownership is a global history property; mocks do not model the bus", "anchors": ["src/synth.c:write_reg_safe", "src/synth.c:synth_enable_dac", "src/synth.c:release_z80_bus"]}
{"id": "C17", "title": "SRAM preset slot encode/decode round-trip", "statement": "Saving a user preset to a slot image and loading that image back returns exactly the saved preset with the slot considered valid.", "quantifier": "every preset whose fields fit their widths", "why_tests_cant": "all values of a 192-bit record and its checksum", "anchors": ["src/sram/midi_fm_sram.c:midi_fm_sram_save_preset", "src/sram/midi_fm_sram.c:midi_fm_sram_load_presets", "src/sram/crc.c"]}
{"id": "C18", "title": "SRAM behaves as a map from program to preset", "statement": "After any sequence of save and clear operations on a cartridge with SRAM, loading returns for each program the most recently saved preset if not cleared since, nothing if cleared; operations on one program never change what is loaded for another.", "quantifier": "every finite sequence of save/clear operations over all 128 programs", "why_tests_cant": "unbounded histories and all pairs of programs (slot overlap)", "anchors": ["src/sram/midi_fm_sram.c"]}
{"id": "C19", "title": "Corrupted SRAM slots are rejected", "statement": "If a valid stored slot is damaged by flipping any non-empty set of bits spanning at most 16 consecutive bits, loading ignores the slot instead of installing a damaged preset.", "quantifier": "every valid slot, every burst error of length 1..16 bits at every position", "why_tests_cant": "number of (preset, burst) combinations is astronomically large", "anchors": ["src/sram/crc.c:crc_calc_crc16", "src/sram/midi_fm_sram.c"]}
{"id": "C20", "title": "The checksum is CRC-16/CCITT-FALSE and linear", "statement": "The checksum of any byte string equals the bit-serial CRC with polynomial 0x1021 and initial value 0xFFFF, always fits 16 bits, and the difference of checksums of two equal-length strings depends only on their bitwise difference.", "quantifier": "every byte string of every length", "why_tests_cant": "unbounded inputs", "anchors": ["src/sram/crc.c"]}
{"id": "C21", "title": "Power loss during a save or clear", "statement": "If power is lost after any number of the byte writes of a save or clear, every other program still loads exactly as before, and the affected program loads as either the old preset, the new preset or nothing.", "quantifier": "every crash point, every old and new content, every program", "why_tests_cant": "crash points times contents; requires reasoning about checksum collisions of mixed images", "anchors": ["src/sram/midi_fm_sram.c:midi_fm_sram_save_preset", "src/sram/midi_fm_sram.c:midi_fm_sram_clear_preset"]}
{"id": "C22", "title": "Presets saved on a supported cartridge are restored at power-on", "statement": "On a cartridge with SRAM support, user presets saved in an earlier session are active after the power-on sequence of the ROM.", "quantifier": "every earlier saved content, every cartridge type that supports SRAM", "why_tests_cant": "unit tests mock detection and never run the real start-up order", "anchors": ["src/main.c:main", "src/sram/sram.c:sram_init", "src/midi.c:midi_init", "src/comm/comm.c:comm_init"]}
{"id": "C23", "title": "SRAM access restores Z80 bus ownership", "statement": "A save, clear or load of SRAM presets leaves the ownership of the Z80 bus as it was before, so subsequent sound register writes remain valid and the PCM driver keeps running.", "quantifier": "every bus state before the call, every SRAM operation", "why_tests_cant": "mocks do not model the bus", "anchors": ["src/sram/midi_fm_sram.c", "src/sram/sram.c"]}
{"id": "C24", "title": "PSG envelope playback never reads outside its envelope", "statement": "While playing any envelope (built-in or user-defined, including one reloaded in the middle of a note) the envelope position always stays within a terminated envelope; no read occurs past its end marker.", "quantifier": "every history of note on/off, program, volume, pitch, envelope load, reset and frame ticks; every well-formed envelope content", "why_tests_cant": "unbounded histories and envelope contents, including reloading under a running cursor", "anchors": ["src/midi_psg.c:apply_envelope_step", "src/midi_psg.c:increment_envelope_step", "src/midi_psg.c:midi_psg_load_envelope"]}
{"id": "C25", "title": "A released PSG note becomes silent in bounded time", "statement": "After a PSG note is released (and not retriggered), the channel is silent within a number of frames bounded by the remaining length of its envelope; a note whose envelope has no loop is silent immediately.", "quantifier": "every envelope, every position in it, every continuation without a new note", "why_tests_cant": "liveness over unbounded envelopes", "anchors": ["src/midi_psg.c:midi_psg_note_off", "src/midi_psg.c:midi_psg_tick"]}
{"id": "C26", "title": "A held looping PSG note never ends by itself", "statement": "As long as a PSG note whose envelope has entered its loop is held, frame ticks never end the note, for arbitrarily many frames.", "quantifier": "every looping envelope, every number of ticks", "why_tests_cant": "unbounded number of ticks", "anchors": ["src/midi_psg.c:apply_envelope_step"]}
{"id": "C27", "title": "PSG state mirrors the chip", "statement": "After any history of PSG operations the attenuation and tone last sent to each PSG channel equal what the interface believes it has sent (so suppressed duplicate writes are harmless), and a channel not playing a note is silent on the chip.", "quantifier": "every history of PSG operations including reset", "why_tests_cant": "stale duplicates appear only after particular sequences such as reset during a note", "anchors": ["src/midi_psg.c:apply_attenuation", "src/midi_psg.c:apply_tone", "src/midi_psg.c:midi_psg_reset"]}
{"id": "C28", "title": "Held-note stack is a bounded ordered set of presses", "statement": "The held-note list keeps the most recent presses in order, up to 10; releasing a pitch removes every occurrence and keeps the order of the rest; its length is always 0..10 and never leaves its storage.", "quantifier": "every sequence of push, pop and remove with arbitrary pitches", "why_tests_cant": "unbounded sequences; in-place compaction with duplicates", "anchors": ["src/note_priority.c"]}
{"id": "C29", "title": "Last-note priority on monophonic channels", "statement": "On a monophonic MIDI channel, after any sequence of note on/off, the sounding pitch is the most recently pressed key among those still held, or silence if none is held.", "quantifier": "every sequence of note on and note off on one channel with at most 10 keys held", "why_tests_cant": "unbounded press/release orders", "anchors": ["src/midi.c:midi_note_on", "src/midi.c:midi_note_off", "src/note_priority.c"]}
{"id": "C30", "title": "Note off silences the note", "statement": "After a note-off for (channel, pitch), no device channel that serves that MIDI channel still reports that pitch as sounding, whatever the mode.", "quantifier": "every reachable state, every channel and pitch", "why_tests_cant": "depends on dynamic assignment histories", "anchors": ["src/midi.c:midi_note_off", "src/midi.c:dev_chan_note_off"]}
{"id": "C31", "title": "FM key state follows the note state", "statement": "In every reachable state an FM channel is keyed on in the chip only if the corresponding device channel reports a note on (no hung FM notes).", "quantifier": "every history of MIDI messages, ticks and resets", "why_tests_cant": "hung notes arise from rare message orders (reset controllers, remap, special mode)", "anchors": ["src/midi.c", "src/midi_fm.c", "src/synth.c:synth_note_on", "src/synth.c:synth_note_off"]}
{"id": "C32", "title": "Note on with velocity 0 is note off", "statement": "A note-on with velocity 0 has exactly the same effect (state and chip writes) as a note-off of the same channel and pitch.", "quantifier": "every state, channel and pitch", "why_tests_cant": "all states", "anchors": ["src/midi.c:midi_note_on"]}
{"id": "C33", "title": "All Notes Off silences a channel", "statement": "After All Notes Off (or All Sound Off) on a channel, no device channel serving it reports a note on and no FM voice serving it is keyed; and the channel behaves as if no key was held.", "quantifier": "every reachable state, every channel", "why_tests_cant": "interaction with held-note memory only visible in later messages", "anchors": ["src/midi.c:all_notes_off"]}
{"id": "C34", "title": "Dynamic allocation never steals and is work-conserving", "statement": "In dynamic mode a note-on never takes over a device channel that is sounding a note for another MIDI channel; it is placed on some device channel whenever a suitable one is free, and is dropped only when none is.", "quantifier": "every reachable state in dynamic mode, every note-on", "why_tests_cant": "allocation depends on the complete assignment history", "anchors": ["src/midi.c:findFreeChannel", "src/midi.c:findFreeMidiAssignedChannel", "src/midi.c:findAnyFreeChannel", "src/midi.c:midi_note_on"]}
{"id": "C35", "title": "Percussion policy in dynamic mode", "statement": "In dynamic mode, percussion (MIDI channel 10) is never placed on a PSG device channel and at most two percussion notes sound at once on dynamically assigned channels.", "quantifier": "every reachable state, every note sequence", "why_tests_cant": "requires all histories", "anchors": ["src/midi.c:tooManyPercussiveNotes", "src/midi.c:isPsgAndIncomingChanIsPercussive"]}
{"id": "C36", "title": "Static mapping routes each MIDI channel to its device", "statement": "In static mode without remapping, a message on MIDI channel 1-6 affects only FM channel 1-6, on 7-10 only PSG channel 1-4, on 11-13 only the CH3 special mode operators, and on 14-16 makes no sound.", "quantifier": "every state reached in static mode without remap messages, every note/volume/pan/program/bend message", "why_tests_cant": "all histories", "anchors": ["src/midi.c:midi_init", "src/midi.c:init_device_channel", "src/midi.c:FOREACH_DEV_CHAN_WITH_MIDI"]}
{"id": "C37", "title": "Channel mapping table is always valid", "statement": "In every reachable state each device channel is assigned to a MIDI channel 0..15 or is unassigned; remap requests naming a non-existent MIDI or device channel change nothing.", "quantifier": "every history of messages including arbitrary SysEx contents", "why_tests_cant": "arbitrary SysEx payloads", "anchors": ["src/midi.c:midi_remap_channel", "src/midi.c:valid_midi_channel", "src/midi.c:valid_device_channel"]}
{"id": "C38", "title": "MIDI channels do not interfere", "statement": "A channel message on MIDI channel a never changes the stored settings of another MIDI channel b, nor the device channels and chip channels serving only b.", "quantifier": "every reachable state, every pair of channels, every channel message", "why_tests_cant": "all pairs of channels and messages", "anchors": ["src/midi.c:midi_cc", "src/midi.c:fm_parameter_cc", "src/midi.c:resetAllControllers", "src/midi.c:midi_note_on"]}
{"id": "C39", "title": "Channel settings reach every voice of the channel", "statement": "After a volume, pan or program change on a MIDI channel, every device channel currently serving it carries that value, and any device channel assigned to it by a later note-on carries it too before the note starts.", "quantifier": "every reachable state, every value, every later note-on", "why_tests_cant": "dynamic assignment can happen arbitrarily later", "anchors": ["src/midi.c:update_device_channel_from_associated_midi_channel", "src/midi.c:channel_volume", "src/midi.c:channel_pan", "src/midi.c:midi_program"]}
{"id": "C40", "title": "Pitch-bend range changes exactly through RPN 0", "statement": "The bend range of a channel changes only by Data Entry while registered parameter 0 (both MSB 0 and LSB 0 selected on that channel) is selected, and then takes the value sent; after RPN null or selecting any other registered or non-registered parameter Data Entry has no effect on it.", "quantifier": "every sequence of CC messages on any channels", "why_tests_cant": "selection state depends on the entire history", "anchors": ["src/midi.c:update_rpn", "src/midi.c:rpn_data_entry", "src/midi.c:update_pb_range"]}
{"id": "C41", "title": "Portamento glides monotonically to its target and stops", "statement": "During a glide the pitch moves only towards the target, never beyond it, reaches exactly the target after finitely many frames and then stays, for every portamento time.", "quantifier": "every start and target pitch, every portamento time, every number of frames", "why_tests_cant": "unbounded frames, unsigned wrap-around", "anchors": ["src/midi.c:process_channel_glide", "src/midi.c:process_portamento"]}
{"id": "C42", "title": "A note on after switching channel mode does not stick", "statement": "If every note-on on a channel is followed by its note-off, then no device channel serving it remains sounding, regardless of portamento and mono/poly mode changes in between.", "quantifier": "every interleaving of note pairs with portamento and mode messages", "why_tests_cant": "stale glide state only matters after mode changes", "anchors": ["src/midi.c:midi_note_on", "src/midi.c:midi_note_off", "src/midi.c:dev_chan_note_off"]}
{"id": "C43", "title": "Foreign and malformed SysEx messages are ignored", "statement": "A SysEx message that does not start with the interface's manufacturer id, is too short, has an unknown command or a wrong length for its command has no effect on state or sound and sends nothing.", "quantifier": "every byte string, every state", "why_tests_cant": "all byte strings", "anchors": ["src/midi.c:midi_sysex", "src/midi.c:SYSEX_COMMANDS"]}
{"id": "C44", "title": "Ping is answered by exactly one pong echoing the payload", "statement": "A ping SysEx produces exactly one reply on the transport that carries the pong command and the ping's payload, framed as a well-formed SysEx that a MIDI parser reads back as one message, and leaves all sound state unchanged.", "quantifier": "every payload of allowed length, every state", "why_tests_cant": "all payloads", "anchors": ["src/midi.c:send_pong", "src/midi_tx.c"]}
{"id": "C45", "title": "Stored presets are dumped back exactly", "statement": "After storing a preset by SysEx for a program, requesting a dump of that program returns the same parameter bytes (until it is overwritten or cleared), and a dump sent back as a store command re-creates the same preset.", "quantifier": "every preset payload with in-range values, every program, every intermediate history of stores/clears to other programs", "why_tests_cant": "all payload values and histories", "anchors": ["src/midi.c:store_program", "src/midi.c:send_preset_dump", "src/midi.c:dump_preset_request", "src/midi_fm.c:midi_fm_store_preset"]}
{"id": "C46", "title": "Non-General-MIDI controllers can be disabled", "statement": "While non-General-MIDI CCs are disabled, no GenMDM-specific controller changes state or sound.", "quantifier": "every state with the option disabled, every non-GM controller and value", "why_tests_cant": "all controllers and states", "anchors": ["src/midi.c:midi_cc", "src/midi.c:set_non_general_midi_ccs"]}
{"id": "C47", "title": "FM parameter controllers always produce in-range register fields", "statement": "Every FM parameter controller maps its 7-bit value monotonically onto the full range of its chip field: value 0 gives the minimum, 127 gives the maximum, and no value overflows into neighbouring fields.", "quantifier": "every controller number and every value 0..127", "why_tests_cant": "all controllers and values", "anchors": ["src/midi.c:set_fm_chan_parameter", "src/midi.c:RANGE"]}
{"id": "C48", "title": "No MIDI input can make the interface touch memory outside its tables", "statement": "Processing any sequence of well-formed MIDI messages (data bytes below 0x80) interleaved with frame ticks never indexes any array out of bounds, dereferences a null pointer or fails to terminate.", "quantifier": "every finite sequence of well-formed MIDI messages and ticks, from power-on", "why_tests_cant": "every index computation must be safe in every reachable state", "anchors": ["src/midi.c", "src/midi_fm.c", "src/midi_psg.c", "src/midi_dac.c", "src/midi_fm_sm.c", "src/synth.c"]}
{"id": "C49", "title": "System Reset restores power-on behaviour", "statement": "After a System Reset message the interface's response (all chip writes and replies) to any later message sequence is the same as that of a freshly powered-on interface with the same stored presets.", "quantifier": "every history before the reset, every message sequence after it", "why_tests_cant": "equivalence over all histories and futures", "anchors": ["src/midi.c:midi_reset", "src/midi.c:reset", "src/midi_psg.c:midi_psg_reset", "src/synth.c:synth_init"]}
{"id": "C50", "title": "Transport discovery locks on to the first port with data", "statement": "The interface reads from the first transport found ready, and from then on reads and writes only that transport; before any transport is ready reads wait and nothing is consumed.", "quantifier": "every readiness schedule of the transports, every sequence of reads and writes", "why_tests_cant": "schedules are unbounded", "anchors": ["src/comm/comm.c:comm_read", "src/comm/comm.c:comm_read_ready", "src/comm/comm.c:comm_write"]}
{"id": "C51", "title": "Load counters and percentage never overflow", "statement": "The idle and busy counters never exceed their limits and the displayed load percentage is always between 0 and 100 without arithmetic overflow.", "quantifier": "every polling schedule", "why_tests_cant": "unbounded schedules", "anchors": ["src/comm/comm.c:comm_idle_count", "src/comm/comm.c:comm_busy_count", "src/ui.c:load_percent"]}
{"id": "C52", "title": "Every frame is delivered to every handler", "statement": "Each vertical-blank interrupt is eventually accounted for exactly once in the frame delta delivered to each registered frame handler, handlers being called in registration order; registration at start-up never exceeds the handler table.", "quantifier": "every interleaving of vertical-blank interrupts with main-loop ticks", "why_tests_cant": "interrupt timing", "anchors": ["src/scheduler.c"]}
{"id": "C53", "title": "Log keeps the newest messages in order", "statement": "The log behaves as a queue of bounded length: messages are displayed in order and, when full, the oldest are dropped first.", "quantifier": "every sequence of log and dequeue operations", "why_tests_cant": "unbounded sequences with wrap-around", "anchors": ["src/log.c"]}
{"id": "C54", "title": "IP address text is the decimal dotted form", "statement": "The text shown for an IP address is the decimal representation of its four bytes separated by dots and never exceeds 15 characters plus terminator.", "quantifier": "every 32-bit address", "why_tests_cant": "2^32 addresses", "anchors": ["src/comm/ip_util.c:uint32_to_ip_str", "src/comm/ip_util.c:uint8_to_str"]}
{"id": "C55", "title": "RTP-MIDI payloads are decoded to exactly their MIDI bytes", "statement": "For a well-formed RTP-MIDI packet the emitted bytes are exactly the MIDI commands of its command list with running status expanded and delta-times removed.", "quantifier": "every well-formed command list", "why_tests_cant": "all command lists, delta-time widths and running-status patterns", "anchors": ["src/comm/rtpmidi.c:rtpmidi_processRtpMidiPacket"]}
{"id": "C56", "title": "RTP-MIDI pack/parse round-trip", "statement": "Packing MIDI bytes into an RTP-MIDI packet and parsing that packet yields the same MIDI bytes, for all lengths the sender supports.", "quantifier": "every MIDI message and length", "why_tests_cant": "length-field boundaries", "anchors": ["src/comm/rtpmidi.c:rtpmidi_packRtpMidiPacket", "src/comm/rtpmidi.c:rtpmidi_processRtpMidiPacket"]}
{"id": "C57", "title": "RTP-MIDI parsing never reads past the packet", "statement": "Whatever bytes a peer sends, parsing never reads beyond the received packet length.", "quantifier": "every packet content and length", "why_tests_cant": "adversarial inputs", "anchors": ["src/comm/rtpmidi.c"]}
{"id": "C58", "title": "AppleMIDI session packets are answered correctly", "statement": "An invitation on either port is answered by an acceptance echoing the initiator token to the same port; a clock-sync with count 0 is answered by count 1 echoing its first timestamp; other packets produce no reply; wrong signatures are reported as errors.", "quantifier": "every packet, every session state", "why_tests_cant": "all packet contents", "anchors": ["src/comm/applemidi.c"]}
{"id": "C59", "title": "Network sends never modify a buffer in flight", "statement": "While a network send is in progress its packet buffer is not modified, at most one send is in flight, and bytes written meanwhile are sent later in order unless the bounded queue overflows.", "quantifier": "every interleaving of writes, ticks and send-completion callbacks", "why_tests_cant": "asynchronous completion timing", "anchors": ["src/comm/comm_megawifi.c"]}
{"id": "C60", "title": "Receiver feedback acknowledges the last received packet at a bounded rate", "statement": "Receiver feedback is sent at most once per configured number of frames and carries the sequence number of the most recent MIDI packet; none is sent when no session is active.", "quantifier": "every schedule of packets and ticks", "why_tests_cant": "unbounded schedules", "anchors": ["src/comm/comm_megawifi.c:comm_megawifi_tick", "src/comm/applemidi.c"]}
{"id": "C61", "title": "Demo mode only generates playable notes", "statement": "In demo mode any sequence of button presses produces only well-formed MIDI messages with pitches in the playable FM range and valid programs.", "quantifier": "every sequence of controller states", "why_tests_cant": "unbounded button histories", "anchors": ["src/comm/comm_demo.c"]}
{"id": "C62", "title": "Percussion voices are selected only for percussion", "statement": "A melodic MIDI channel's notes on an FM channel are never played with a percussion preset.", "quantifier": "every reachable state, every note-on on a channel other than 10", "why_tests_cant": "the percussive flag depends on assignment history", "anchors": ["src/midi.c:midi_note_on", "src/midi_fm.c:midi_fm_percussive"]}
{"id": "C63", "title": "Reset All Controllers affects only its channel", "statement": "Reset All Controllers on one MIDI channel does not change the mapping, notes or settings of other MIDI channels.", "quantifier": "every reachable state", "why_tests_cant": "depends on mode and assignment history", "anchors": ["src/midi.c:resetAllControllers"]}
{"id": "C64", "title": "Real-time bytes are transparent", "statement": "Inserting MIDI real-time bytes (clock, active sensing, ...) anywhere in a stream, including inside another message, does not change the dispatched channel messages.", "quantifier": "every well-formed stream and insertion positions", "why_tests_cant": "all insertion positions", "anchors": ["src/midi_rx.c"]}
{"id": "C65", "title": "The editor screen is told about every parameter change", "statement": "Each synthesizer call notifies the registered parameter callback exactly once for the channel (or LFO / special mode) whose displayed parameters it may change, and calls that change no displayed parameter notify nobody; with no callback registered nothing is called.", "quantifier": "every synthesizer state, every call with legal arguments", "why_tests_cant": "all calls in all states, including the skip when a level is unchanged", "anchors": ["src/synth.c:channel_parameter_updated", "src/synth.c:other_parameter_updated"]}
{"id": "C66", "title": "A PSG voice sounds at its envelope-shifted pitch", "statement": "While a PSG note sounds, the tone period on the chip is that of the last note pitch or bend asked for, shifted by exactly the cents the current envelope byte prescribes (none, 5, 10, 20, 50, 100, 200 or 500 up or down).", "quantifier": "every history of PSG calls without envelope loads, both television systems", "why_tests_cant": "all interleavings of pitch changes, ticks and envelope positions", "anchors": ["src/midi_psg.c:envelope_tone"]}
{"id": "C67", "title": "PSG envelopes are played exactly, one byte per frame", "statement": "After a PSG note on, the chip plays the bytes of the selected envelope one per frame: a plain envelope once and then silence; a looping one its lead-in and then its loop forever while held; after release the rest of the loop, the tail once, then silence.", "quantifier": "every envelope of these shapes (ROM or user-defined), every earlier history, every number of frames, volume/pitch/program changes in between", "why_tests_cant": "unbounded playback length and all envelope contents", "anchors": ["src/midi_psg.c:apply_envelope_step", "src/midi_psg.c:midi_psg_tick"]}
{"id": "C68", "title": "Running status is understood", "statement": "A note on sent without repeating the status byte (MIDI running status) is played like one sent with it.", "quantifier": "every channel, note and velocity", "why_tests_cant": "all data values; a tester would have to think of the abbreviation", "anchors": ["src/midi_rx.c:read_message"]}
{"id": "C69", "title": "The startup sequence runs as written", "statement": "The user's startup MIDI sequence is executed as the messages it consists of, and whatever it contains the interface then starts.", "quantifier": "every startup sequence", "why_tests_cant": "the sequence is user configuration; tests have one", "anchors": ["src/midi_rx.c:midi_rx_run_startup_sequence", "src/midi_rx.c:read_startup_sequence"]}
{"id": "C70", "title": "A reply never fails for want of a transport", "statement": "Sending data to the host while no transport has been chosen is harmless.", "quantifier": "every history before the first received byte", "why_tests_cant": "tests always choose a transport first", "anchors": ["src/comm/comm.c:comm_write"]}
{"id": "C71", "title": "A note is played as asked", "statement": "A note on that strikes an FM channel leaves that channel keyed on, at the pitch its key, the channel's pitch bend, bend range and fine tuning add up to (on channel 10: at the drum's own key), on the side, with the instrument and at the level the channel's earlier messages and the velocity ask for; in the default mode a note of channels 1-6 within the chip's range is always struck, on the FM channel of that number.", "quantifier": "every earlier history of messages and frames, every FM channel, key and velocity, any presets and tables", "why_tests_cant": "the register contents after a note depend on every message since power-on", "anchors": ["src/midi.c:midi_note_on", "src/midi_fm.c:midi_fm_note_on", "src/synth.c:synth_pitch"]}
{"id": "C72", "title": "A pitch bend moves exactly the channel's sounding notes", "statement": "A pitch bend re-tunes every FM channel sounding a note of that MIDI channel to the note's pitch plus the bend, without striking it again, and leaves key and pitch of all other FM channels alone.", "quantifier": "every earlier history, every FM channel, every bend value and range", "why_tests_cant": "depends on which voices sound for whom after an arbitrary history", "anchors": ["src/midi.c:midi_pitch_bend", "src/midi_fm.c:midi_fm_pitch"]}
{"id": "C73", "title": "A channel plays the instrument stored for the program it selects", "statement": "After an instrument has been stored for a program, a channel that selects that program plays the stored instrument: the chip's algorithm, feedback, modulation sensitivities and operator parameters are those stored.", "quantifier": "every instrument, program and channel, every history before the store and between store and selection", "why_tests_cant": "depends on what the channel selected before and on every message in between", "anchors": ["src/midi.c:update_program", "src/midi.c:store_program", "src/midi_fm.c:midi_fm_program"]}
{"id": "C74", "title": "The screen names the note every device plays", "statement": "After each drawn frame the row of every FM and PSG channel shows the note it sounds under its usual name and octave, and nothing when it is silent.", "quantifier": "every history of messages and frames, every device and note", "why_tests_cant": "ten rows updated incrementally against remembered pitches; any order of notes and frames", "anchors": ["src/ui.c:update_key_on_off", "src/ui.c:print_chan_activity"]}
{"id": "C75", "title": "The screen shows the channel mapping in use", "statement": "Once five frames passed without a message, the number beside each device is the MIDI channel it plays, or a dash when it plays none.", "quantifier": "every history of messages and frames, both routing modes", "why_tests_cant": "the screen is updated incrementally from a remembered copy of the mapping", "anchors": ["src/ui.c:print_mappings", "src/ui.c:print_mappings_if_dirty"]}
{"id": "C76", "title": "Controllers and programs are shown where they act, and then vanish", "statement": "A control or program change appears, with its number and value, beside every device that plays its MIDI channel from the next frame on, for 150 frames, and then disappears, unless another such message for the device replaces it.", "quantifier": "every history before and after, every channel, controller and value", "why_tests_cant": "ageing over 150 frames while other traffic arrives", "anchors": ["src/ui.c:midi_change_callback", "src/ui.c:print_midi_changes"]}
{"id": "C77", "title": "The FM parameter panel shows the selected channel", "statement": "Controller 83 alone switches the panel on and off; while off nothing of it is on the screen; while on, after every frame, all parameters of the FM channel playing the selected MIDI channel, its algorithm diagram and all headings are shown with their current values.", "quantifier": "every history; every value of every FM parameter", "why_tests_cant": "each parameter change repaints only a part; correctness depends on the order of all of them", "anchors": ["src/ui_fm.c:ui_fm_set_parameters_visibility", "src/ui_fm.c:update_fm_values", "src/ui_fm.c:synth_parameter_updated"]}
{"id": "C78", "title": "The screen cannot disturb the music", "statement": "Drawing never fails, and what is sent to the sound chips and kept by the MIDI layer is the same as without a screen.", "quantifier": "every history of messages, frames, transports and log entries", "why_tests_cant": "requires comparing two runs for all inputs", "anchors": ["src/ui.c:update", "src/ui_fm.c:ui_fm_update"]}
{"id": "C79", "title": "Routing icon, special mode mark and transport name are right", "statement": "Once five frames passed without a message, the routing icon tells dynamic from static and the mark beside FM 3 tells special mode; the transport in use is named within five frames, 'waiting' is shown before one answers, and the name stays.", "quantifier": "every history of messages and frames, every transport, builds with and without MegaWiFi", "why_tests_cant": "all are redrawn only on change against remembered copies", "anchors": ["src/ui.c:print_routing_mode_if_needed", "src/ui.c:update_ch3sp", "src/ui.c:print_comm_mode"]}
{"id": "C80", "title": "Fixed texts stay on the screen", "statement": "The title, the channel numbers and the load sign are on the screen at all times: nothing that is drawn ever overwrites them.", "quantifier": "every history of messages and frames, log messages of any length and content", "why_tests_cant": "needs every drawing position for all inputs", "anchors": ["src/ui.c:print_header", "src/ui.c:print_channels", "src/ui.c:print_log"]}
{"id": "C81", "title": "Log messages are shown in full", "statement": "The most recent log message taken to the screen stands in full on its line, with the message before it above when it is on the second line.", "quantifier": "every history, messages of any length", "why_tests_cant": "depends on how many messages came before and on what was on the lines", "anchors": ["src/ui.c:print_log"]}
{"id": "C82", "title": "The screen at power-on, and the cartridge it names", "statement": "At power-on no notes, changes or panel are shown, every device shows its default MIDI channel, and while waiting for a transport the detected EverDrive is named (PRO before X7), which disappears when a transport is named.", "quantifier": "every build, stored memory, register content and later history", "why_tests_cant": "register contents of cartridges cannot be varied in unit tests", "anchors": ["src/ui.c:ui_init", "src/ui.c:print_comm_mode", "src/ui.c:ui_print_present_devices", "src/comm/comm_everdrive.c:comm_everdrive_is_present", "src/comm/comm_everdrive_pro.c:comm_everdrive_pro_is_present"]}
{"id": "C83", "title": "The load lamps show the measured load", "statement": "The four load lamps are dark until the first measurement; from then on the n-th lamp is lit exactly when the last measurement, taken every 15 frames, found data in some of its polls and in at least 25*(n-1) percent of them.", "quantifier": "every history of messages and frames, every pair of counter values at a measurement", "why_tests_cant": "the lamps are redrawn only every 15 frames, whatever the frame lengths, and everything else on the screen must leave them alone", "anchors": ["src/ui.c:update_load", "src/ui.c:load_percent", "src/ui.c:update", "src/comm/comm.c:comm_read_ready"]}
{"id": "C84", "title": "A PSG note follows its envelope from the message to the chip", "statement": "A note started on a PSG channel sounds, after any number of frames, with the byte of its envelope that belongs to that frame: the envelope last uploaded by SysEx (two nibbles per byte), or else the one of the channel's program, repeated from its loop while the key is down. Loudness and pitch at the chip are those of the note's velocity and of the channel's current volume, bend and tuning.", "quantifier": "every history before the note, every number of frames and every other traffic while it sounds, every ROM, every uploaded envelope, static and dynamic mode", "why_tests_cant": "the outcome is spread over MIDI state, envelope upload, PSG driver and frame handler, and over unboundedly many frames", "anchors": ["src/midi.c:midi_note_on", "src/midi.c:load_psg_envelope", "src/midi_psg.c:midi_psg_tick", "src/midi_psg.c:midi_psg_note_on", "src/midi_psg.c:midi_psg_load_envelope"]}
{"id": "C85", "title": "A released PSG note plays the rest of its envelope and falls silent", "statement": "After the key is released, or All Notes Off or All Sound Off arrives, the loop is played to its end and then the tail once, one byte per frame; from then on the channel's attenuation at the chip is 15. A note released before its loop began is silent at once.", "quantifier": "every history before the release, every number of frames before and after it, every ROM and uploaded envelope", "why_tests_cant": "needs all combinations of release moment, envelope and other traffic", "anchors": ["src/midi.c:midi_note_off", "src/midi.c:all_notes_off", "src/midi_psg.c:midi_psg_note_off", "src/midi_psg.c:midi_psg_tick"]}
{"id": "C86", "title": "What arrives over the serial cable is performed, in order, and nothing else", "statement": "Whatever the timing of bytes, screen interrupts and main loop, the messages read so far have been performed in the order they were sent and nothing else has; the rest waits in the receive buffer, is read within 520 steps of the main loop once the cable is silent, and no byte is lost as long as at most 500 bytes more arrive than the main loop makes steps. The interface never stops at a fault.", "quantifier": "every interleaving of arriving bytes, vertical blanks and main loop steps, every stream of messages, every content of the receive buffer's memory, every ROM and stored memory", "why_tests_cant": "interrupts may come at any moment; tests run the receiver without them", "anchors": ["src/midi_rx.c:midi_rx_read_if_comm_ready", "src/scheduler.c:scheduler_tick", "src/comm/comm_serial.c:recv_ready_callback", "src/comm/ring_buf.c:ring_buf_write", "src/main.c:main"]}
{"id": "C87", "title": "Every screen refresh is one frame of music", "statement": "A frame (envelopes, glides) is performed at most once per vertical blank, and exactly once per blank if the main loop keeps up. While the interface waits for the rest of a message, nothing is performed or written, however many blanks pass.", "quantifier": "every interleaving of arriving bytes, vertical blanks and main loop steps", "why_tests_cant": "depends on where between two instructions an interrupt falls", "anchors": ["src/scheduler.c:scheduler_vsync", "src/scheduler.c:scheduler_tick", "src/comm/comm.c:comm_read", "src/midi_rx.c:midi_rx_read"]}
{"id": "C88", "title": "FM notes, from the bytes on the cable to the chip registers", "statement": "When the bytes of a sequence of messages have been read: if every key was released, all FM channels are keyed off; a keyed-on channel plays a key that is down; a Note On last in the sequence has keyed its channel on at the note's bent and tuned pitch, with the channel's selected instrument, at its level and on its side.", "quantifier": "every sequence of messages, every interleaving of bytes, blanks and main loop steps", "why_tests_cant": "end-to-end over receiver, MIDI layer, synth driver and chip registers, for unbounded traffic", "anchors": ["src/midi_rx.c:midi_rx_read", "src/midi.c:midi_note_on", "src/midi_fm.c:midi_fm_note_on", "src/synth.c:synth_note_on", "src/synth.c:synth_note_off"]}
{"id": "C89", "title": "PSG notes, from the bytes on the cable to the chip, timed by the screen", "statement": "A PSG note sounds with the envelope byte that belongs to the number of vertical blanks since the last byte of its Note On was read; when the last byte of the Note Off has been read it plays its loop to the end and its tail, one byte per blank, and falls silent.", "quantifier": "every sequence of messages before, during and after the note, every interleaving in which the main loop keeps up with the screen", "why_tests_cant": "combines interrupt timing with unboundedly many frames and messages", "anchors": ["src/midi_rx.c:midi_rx_read", "src/scheduler.c:scheduler_tick", "src/midi_psg.c:midi_psg_tick", "src/midi.c:midi_note_on", "src/midi.c:midi_note_off"]}
{"id": "C90", "title": "What is sent goes out byte by byte and never overruns the transmitter", "statement": "A message sent to the serial port or over an EverDrive X7 appears at the port's data register in order, each byte written directly after the status register showed the transmitter free, and no other register is touched. It is sent completely exactly if the transmitter gets free often enough, otherwise the sender waits.", "quantifier": "every message, every sequence of answers of the status register, every driver state", "why_tests_cant": "the answers of the hardware are unbounded; tests mock a fixed sequence", "anchors": ["src/comm/comm.c:comm_write", "src/comm/comm_serial.c:comm_serial_write", "src/comm/serial.c:serial_send", "src/comm/comm_everdrive.c:comm_everdrive_write"]}
{"id": "C91", "title": "Messages sent over an EverDrive PRO arrive as they were sent", "statement": "The words written to the FIFO of an EverDrive PRO for any sequence of messages form one USB write command frame per message, from which the receiver reads back exactly these messages; there is no other way to read them.", "quantifier": "every sequence of messages of byte content and at most 65535 bytes each", "why_tests_cant": "unambiguity is a statement about all message sequences", "anchors": ["src/comm/comm_everdrive_pro.c:bi_cmd_usb_wr", "src/comm/comm_everdrive_pro.c:bi_cmd_tx", "src/comm/comm_everdrive_pro.c:bi_fifo_wr"]}
{"id": "C92", "title": "Reading from a cartridge takes exactly one byte, and only one that was announced", "statement": "Reading a byte over an EverDrive X7 or PRO fetches exactly one word from the data register, after the status register announced it, and returns its low byte. Reading a block from the PRO's FIFO never fetches more than the FIFO announced and returns what was fetched, in order.", "quantifier": "every sequence of answers of status and data registers, every block length", "why_tests_cant": "fetching too much only shows for particular fill levels of the FIFO", "anchors": ["src/comm/comm.c:comm_read", "src/comm/comm_everdrive.c:comm_everdrive_read", "src/comm/comm_everdrive_pro.c:bi_fifo_rd", "src/comm/comm_everdrive_pro.c:comm_everdrive_pro_read"]}
{"id": "C93", "title": "The cartridge's light is on while data arrives", "statement": "After any history of bytes read and frames, the light of an EverDrive is on exactly if a byte was read since the last frame. (False in general: saving or clearing a preset switches it off.)", "quantifier": "every history of reads, frames, saved and cleared presets", "why_tests_cant": "the light is shared with the bank register that saving writes", "anchors": ["src/comm/everdrive_led.c:everdrive_led_blink", "src/comm/everdrive_led.c:everdrive_led_tick", "src/sram/sram_ed_x7.c:sram_ed_x7_disable"]}
{"id": "C94", "title": "Receive interrupts take every byte from the port, in order", "statement": "From start-up on, for any sequence of receive interrupts and reads by the main loop, the bytes delivered are the bytes the port offered, in order, as long as no more than 511 wait; the data register is read only after the status register announced a byte; bytes offered before start-up are dropped. If more wait, the first that does not fit is lost and the others stay in the port.", "quantifier": "every sequence of interrupts and reads, any number of bytes per interrupt, any status answers", "why_tests_cant": "unbounded interleavings and fill levels", "anchors": ["src/comm/comm_serial.c:update_buffer", "src/comm/comm_serial.c:flush_rrdy", "src/comm/comm_serial.c:comm_serial_init", "src/comm/serial.c:ext_int_callback"]}
{"id": "C95", "title": "Start-up of the serial port tolerates interrupts", "statement": "A receive interrupt that the hardware can deliver during comm_serial_init never calls a missing callback. (False: interrupts are let through before the callback is set.)", "quantifier": "every moment between two steps of the initialisation, every number of interrupts", "why_tests_cant": "needs an interrupt between two particular instructions", "anchors": ["src/comm/comm_serial.c:comm_serial_init", "src/comm/serial.c:serial_init", "src/comm/serial.c:ext_int_callback"]}
{"id": "C96", "title": "Saved presets, from the bus accesses to the cartridge's memory and back", "statement": "On an EverDrive PRO or X7, what is found at the next start are the presets found before, with those saved and cleared since replaced. The saved memory is accessed only while it is mapped and written only while it is writable; afterwards the program is mapped again and the memory protected. Without such a cartridge the bus is not touched.", "quantifier": "every history of saved and cleared presets, every content of the memory, every preset", "why_tests_cant": "bank switching and checksums over all contents", "anchors": ["src/sram/sram.c:sram_enable", "src/sram/sram.c:sram_write", "src/sram/sram_ed_x7.c:sram_ed_x7_enable", "src/sram/sram_ed_pro.c:sram_ed_pro_enable", "src/sram/midi_fm_sram.c:midi_fm_sram_save_preset"]}
{"id": "C97", "title": "No interrupt that needs the program runs while saved memory is mapped over it", "statement": "During every access to the saved memory the screen's and the line interrupt are off; the other settings of the video chip stay. Afterwards they are as before. (The last part is false: both interrupts are switched on, whether they were on or not.)", "quantifier": "every history of saved and cleared presets, every setting of the video chip", "why_tests_cant": "depends on settings made elsewhere", "anchors": ["src/sys_wraps.c:__wrap_SYS_disableInts", "src/sys_wraps.c:__wrap_SYS_enableInts", "src/sram/sram.c:sram_enable", "src/sram/sram.c:sram_disable"]}
{"id": "C98", "title": "Sound-editing controllers set exactly the parameter they name", "statement": "After any history without raw register writes, a controller of the sound-editing table sets the parameter it names on every FM channel that serves its MIDI channel (in fixed assignment: that channel, and nothing else) to its share of the dial, from the message to the chip's registers. Every other parameter, the keys, the pitches and the levels stay as they are, and no note is interrupted. With the controllers turned off nothing reaches a chip. (Levels of operators, controllers 16-19, are not part of this.)", "quantifier": "every history, channel, controller of the table and value", "why_tests_cant": "registers share bits of several parameters; all histories, all fields at once", "anchors": ["src/midi.c:set_fm_chan_parameter", "src/midi.c:midi_cc", "src/synth.c:synth_operator_attack_rate", "src/synth.c:synth_stereo"]}
{"id": "C99", "title": "Raw register writes reach the FM chip as sent", "statement": "SysEx command 8 or 9 with register and data as nibbles makes exactly that one write to part 0 or 1 of the chip after any history, and changes nothing else; with any other number of bytes it is ignored.", "quantifier": "every history, part, register and data byte, every payload length", "why_tests_cant": "2 x 65536 messages, any state before", "anchors": ["src/midi.c:direct_write_ym2612", "src/midi.c:midi_sysex", "src/synth.c:synth_direct_write_ym2612"]}
{"id": "C100", "title": "The sample channel plays the sample of its key", "statement": "While the sample channel is on (controller 78; fixed assignment), a key on MIDI channel 6 starts the sample of the key it is bent and tuned to, or nothing if that has none, and writes to neither sound chip; releasing the only key stops it. All Notes Off stops it as well. While the sixth FM voice is keyed, the chip's output is that of the voice. (The last two are false.)", "quantifier": "every history, key, velocity, bend and tuning within the sample table", "why_tests_cant": "depends on options and tunings set any time before", "anchors": ["src/midi_dac.c:midi_dac_note_on", "src/midi_dac.c:midi_dac_note_off", "src/midi_dac.c:midi_dac_all_notes_off", "src/midi.c:enable_dac", "src/midi.c:resetAllControllers"]}
{"id": "C101", "title": "Special-mode channels tune their operator", "statement": "In fixed assignment a note on MIDI channels 11-13 sets the frequency registers of the first, second or third operator of FM channel 3 to the pitch of the key, bent and tuned, sets the level of the operator, if it is heard, to that of the sound at the note's velocity and the volume of channel 3, writes nothing else and keys nothing. Releasing it silences the operator. (The last is false: nothing is sent.)", "quantifier": "every history, operator, key, velocity, bend and tuning within the range of the chip", "why_tests_cant": "depends on options and tunings set any time before", "anchors": ["src/midi_fm_sm.c:midi_fm_sm_note_on", "src/midi_fm_sm.c:midi_fm_sm_note_off", "src/synth.c:synth_special_mode_pitch"]}
{"id": "C102", "title": "Level controllers set the level of their operator", "statement": "In fixed assignment controllers 16-19 put the level into the register of operator 1-4 of the channel, scaled by the channel's volume if the operator is heard, inverted if SysEx command 7 asked for it, and write nothing else. (False when the level told is the one it had: nothing is sent, even if the chip holds another.)", "quantifier": "every history, channel, operator and value", "why_tests_cant": "depends on algorithm, volume and options set any time before", "anchors": ["src/midi.c:set_fm_chan_parameter", "src/synth.c:synth_operator_total_level", "src/synth.c:effective_total_level"]}
{"id": "C103", "title": "Everything played over the network is performed", "statement": "With the interface listening on the network, every RTP-MIDI packet whose commands the parser copes with is performed message by message in the order of its command list, between the right frames, exactly as if the messages had been given to the synthesiser directly: same chip writes, same final state. Session packets (invitations, clock syncs, goodbyes), packets for other ports, receive errors and moments without a receive request change nothing of it, and the interface is always ready for the next packet.", "quantifier": "all sequences of polls (with any callbacks and library answers) and frames from power-on, all packet contents", "why_tests_cant": "Tests feed single packets to the parser with a mocked emitter; the composition of poll, ring buffer, reading loop and synthesiser over arbitrary session traffic is never run", "anchors": ["src/comm/comm_megawifi.c:202-375", "src/comm/rtpmidi.c:90-141", "src/midi_rx.c:46-140", "src/comm/comm.c:76-104", "src/scheduler.c:60-74"]}
{"id": "C104", "title": "The interface sends only what it was asked for, and sends it", "statement": "The interface sends MIDI data back only in answer to a ping or an instrument dump request, one whole answer per request, and never at power-on, on a frame or for any other message; over the network each answer is handed to the sender as one packet, and every answer reaches the network.", "quantifier": "all histories and messages; all network runs as in C103", "why_tests_cant": "Tests check single replies; that no other history ever sends, and what happens to answers while the sender is busy, needs a quantifier over histories", "anchors": ["src/midi.c:831-935", "src/midi_tx.c:5-15", "src/comm/comm_megawifi.c:224-237", "src/comm/comm_megawifi.c:385-440", "src/comm/comm.c:114-119"]}
{"id": "C105", "title": "A well-formed network packet never stops the interface", "statement": "After any well-formed RTP-MIDI packet the interface goes on performing later packets and frames.", "quantifier": "all well-formed packets and all later events", "why_tests_cant": "Needs all later events: a reader that waits for ever looks like a slow one in a test", "anchors": ["src/comm/rtpmidi.c:110-137", "src/comm/comm.c:96-104", "src/midi_rx.c:46-140"]}
{"id": "C106", "title": "The network is in use when it can be, and the user is told", "statement": "At power-on the network transport is in use exactly if the module is present, answers, has an address and its ports could be opened, whatever the library answers; then session control is on port 5006 and MIDI on 5007 and the address is announced without a warning, otherwise a warning is shown and no address. Joining the access point is waited for at most 20 seconds. Not in use, nothing is ever sent or received. The network is in use only when the access point was joined. (The last is false.)", "quantifier": "all answers of the library; all polls, frames and writes afterwards", "why_tests_cant": "Tests run a few answers of a mocked library; the claim is about all combinations and all later events", "anchors": ["src/comm/comm_megawifi.c:78-195", "src/comm/comm_megawifi.c:334-338"]}
{"id": "C107", "title": "Byte strings are compared in lexical order", "statement": "Comparing two regions of the same length gives zero exactly if they are equal, a negative number if the first is lexically less as unsigned bytes and a positive one if it is greater; nothing behind the regions is read. SysEx messages are recognised by it.", "quantifier": "all contents and lengths", "why_tests_cant": "all pairs of byte strings", "anchors": ["src/utils.c:18-28", "src/midi.c:midi_sysex"]}
{"id": "C108", "title": "Notes played over the network sound, and stop", "statement": "Over the network: a Note On in a packet keys its FM channel on at the bent pitch, with the selected instrument, level and side; every FM channel keyed on plays a key that is down, and when all keys are up none is on; a PSG note follows its envelope by the frames since its packet and fades after the release; and no sequence of such packets, session traffic, errors and frames stops the interface.", "quantifier": "all sequences of polls and frames from power-on as in C103; all notes within the chips' ranges", "why_tests_cant": "The path from datagram to chip register runs through seven modules; tests mock each of them away", "anchors": ["src/comm/comm_megawifi.c:239-373", "src/comm/rtpmidi.c:90-141", "src/midi_rx.c:46-140", "src/midi.c:midi_note_on", "src/midi_fm.c:midi_fm_note_on", "src/midi_psg.c:midi_psg_tick"]}
{"id": "C109", "title": "One transport is played and answered, the others are left alone", "statement": "With several transports connected, the interface plays the first that has data at the first poll that finds any: exactly the messages received there are performed, in order, every reply goes back there, and no other transport is ever read or written, whatever it receives; before that nothing is sent and nothing faults. Messages on any transport are performed while the interface is idle. (The last is false.)", "quantifier": "all numbers of transports, all interleavings of bytes on all of them with polls and frames, all messages", "why_tests_cant": "Tests mock the transports one at a time; interleaved bytes on several, for ever, cannot be enumerated", "anchors": ["src/comm/comm.c:43-127", "src/midi_rx.c:46-165", "src/midi_tx.c:5-15", "src/scheduler.c:60-74"]}
{"id": "C110", "title": "A line played with portamento slides at the chip", "statement": "With portamento on, the first key on a silent FM channel is struck; every key pressed while another is held, and every release that leaves another held, slides the sounding note there without striking it again: each frame the channel's frequency is that of a pitch the portamento time nearer to the newest key, bent and tuned as set, until it has arrived; releasing the last key silences the channel. (False for releases of an older key, and the last semitone downwards is jumped.)", "quantifier": "all earlier histories, all lines of keys, releases, bends, frames and other channels' messages, all portamento times", "why_tests_cant": "A line is an unbounded interleaving of keys, bends and frames; tests follow single glides for a few ticks on a mocked synth", "anchors": ["src/midi.c:64-70", "src/midi.c:midi_tick", "src/midi.c:process_channel_glide", "src/midi.c:midi_note_on", "src/midi.c:midi_note_off", "src/midi_fm.c:midi_fm_pitch"]}
{"id": "C111", "title": "In dynamic mode every held key has a voice of its own", "statement": "After dynamic (or polyphonic) mode is asked for, keys may be pressed on any MIDI channels while a voice of the channel's group is left: at every moment each held key has a voice of its own, an FM channel is keyed on exactly when it is the voice of a held key, and it sounds at that key's pitch, bent as its MIDI channel is now, with the instrument and side of that channel and the level of its volume and the key's velocity. Keys of a channel that selects FM are all on FM channels. Two drums (MIDI channel 10) may be held beside them, each on an FM channel of its own, with the instrument and at the key of the drum. (False with portamento on, where the second key of a chord can be lost, and for a drum after a program change on channel 10.)", "quantifier": "all sequences of notes, releases, bends, programs, levels, sides, voice groups and frames within the voices there are", "why_tests_cant": "Which voice serves which key depends on the whole history; tests hold a few keys and mock the chip", "anchors": ["src/midi.c:196-310", "src/midi.c:midi_note_on", "src/midi.c:midi_note_off", "src/midi.c:set_dynamic_mode", "src/midi.c:midi_pitch_bend", "src/midi_fm.c:midi_fm_note_on"]}
{"id": "C112", "title": "A cartridge is recognised at start-up, and only what was recognised is touched", "statement": "Start-up reads the status registers of the EverDrive X7 and PRO once each and writes to neither; a cartridge is recognised exactly if its register identifies it. From then on, whatever is played, sent, saved or interrupted and whatever the hardware answers: registers of a cartridge that was not recognised are never accessed; while no transport is in use the first of X7, PRO, serial port and the others that has data is taken; the one taken stays, and no other cartridge or transmitter is accessed again; nothing fails, unless something is sent before that. The memory of the recognised cartridge is used for saved presets.", "quantifier": "all register answers, all sequences of polls, reads, replies, frames, saved presets, resets and serial interrupts", "why_tests_cant": "Accesses to absent hardware depend on the whole history and on what the bus answers; tests mock each driver and each order of answers separately", "anchors": ["src/comm/comm_everdrive.c:comm_everdrive_init", "src/comm/comm_everdrive_pro.c:comm_everdrive_pro_init", "src/comm/comm.c:63-127", "src/sram/sram.c:sram_init", "src/main.c:19-30"]}
{"id": "C113", "title": "A new bend range is heard at once; other tuning waits", "statement": "When the pitch bend range is set by data entry while notes of the channel sound, every bent note moves at once to the pitch its wheel position has over the new range, as fine-tuned, without a new key stroke; notes with the wheel in the middle, other MIDI channels and all keys stay as they are. Fine tuning, portamento settings, parameter selection, pedals and data entry for other parameters write nothing to a chip. A released note that fades out should keep its pitch (false: it drops to the lowest octave) and fine tuning should reach sounding notes (false: it waits for the next note or bend).", "quantifier": "all earlier histories, all channels, controllers and values, all FM channels", "why_tests_cant": "Which notes sound, how they are bent and which parameter is selected depends on the whole history; tests set the range for one note on a mocked synth", "anchors": ["src/midi.c:1164-1216", "src/midi.c:set_downstream_pitch", "src/midi.c:midi_cc", "src/midi_fm.c:midi_fm_pitch"]}
{"id": "C114", "title": "Notes played over one of several transports sound, and stop", "statement": "With several transports connected, a note played over the transport in use keys on its FM channel at the bent pitch, with the instrument, level and side its channel has selected there; a keyed-on FM channel always plays a key that is down on that transport, and when all its keys are released no FM channel is keyed on - whatever bytes arrive on the other transports and however they interleave. A key released over another transport should stop as well (false: it stays on).", "quantifier": "all numbers of transports, all interleavings of bytes on all of them with polls and frames, all messages, all FM channels", "why_tests_cant": "Interleavings of several byte streams with polls and frames are unbounded; tests mock one transport and the chip", "anchors": ["src/comm/comm.c:63-127", "src/midi_rx.c:46-165", "src/midi.c:midi_note_on", "src/midi.c:midi_note_off", "src/midi_fm.c:midi_fm_note_on"]}
{"id": "C115", "title": "A device channel plays the MIDI channel it was given to", "statement": "SysEx command 0 gives a device channel to a MIDI channel, or takes it away, without a write to any chip. Until dynamic mode is asked for, every device channel serves the MIDI channel it was last given to (System Reset and Reset All Controllers restore the assignment of power-on). A note of a MIDI channel that has one FM channel is struck there, at the bent and tuned pitch of that MIDI channel; with several device channels, a note is struck on one of its FM channels that is silent, while there is one, and every other FM channel keeps its key and frequency; a note of a MIDI channel that has no device channel changes nothing. (A note that sounds while its FM channel is given away can be released: false.)", "quantifier": "all ROMs, cartridges and memories, all histories of messages and frames with any number of re-assignments, all MIDI and FM channels, keys and velocities", "why_tests_cant": "Assignments accumulate over arbitrary sequences of requests interleaved with notes and resets; tests re-assign one or two channels in a fresh state.", "anchors": ["src/midi.c:midi_remap_channel", "src/midi.c:findFreeChannel", "src/midi.c:midi_note_on", "src/midi.c:resetAllControllers"]}
{"id": "C116", "title": "A note writes to the chips for one voice only", "statement": "All writes a Note On makes to the sound chips belong to one voice: one FM channel, one PSG channel or one operator of special mode (the sample voice writes to neither chip). That voice was silent before, or was serving the note's own MIDI channel; so no voice that sounds for another MIDI channel is written to (false for FM channel 3, whose operators are voices of special mode). Every write a Note Off (or Note On with velocity 0) makes belongs to a voice that was sounding that key of that MIDI channel.", "quantifier": "all ROMs, cartridges and memories, all histories of messages and frames in every assignment mode, all channels, keys and velocities, percussion, samples and special mode included", "why_tests_cant": "Which voice is chosen and what is re-sent there depends on the whole history; tests check the expected writes of chosen scenarios, not the absence of writes to every other voice.", "anchors": ["src/midi.c:midi_note_on", "src/midi.c:midi_note_off", "src/midi.c:findFreeChannel", "src/midi.c:update_device_channel_from_associated_midi_channel", "src/midi_fm.c:midi_fm_note_on", "src/midi_psg.c:midi_psg_note_on", "src/midi_fm_sm.c:midi_fm_sm_note_on"]}
