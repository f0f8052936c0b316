{
 "claims": [
  {
   "property": "C01",
   "status": "proved",
   "theorems": [
    "C01_ring_is_bounded_fifo",
    "C01_fifo_conserves_bytes"
   ],
   "note": "Sequential use; all sizes 2..65535, all call sequences."
  },
  {
   "property": "C02",
   "status": "proved",
   "theorems": [
    "C02_delivered_once_in_order",
    "C02_every_write_reported",
    "C02_never_stuck",
    "C02_refused_only_when_full",
    "C02_ready_reliable",
    "C02_available_race_refuted"
   ],
   "note": "All interleavings of memory accesses of one producer and one consumer for write, read and can_read. The free-space query is not interrupt-safe: C02_available_race_refuted."
  },
  {
   "property": "C03",
   "status": "proved",
   "theorems": [
    "C03_exact"
   ],
   "note": "Every startup sequence of complete messages without a reset, every list of messages; SysEx bodies up to 256 bytes."
  },
  {
   "property": "C04",
   "status": "proved",
   "theorems": [
    "C04_limit",
    "C04_oversize",
    "C04_any_body",
    "C04_unknown",
    "C04_total"
   ],
   "note": "Every byte stream; also proves that decoding never fails."
  },
  {
   "property": "C05",
   "status": "proved",
   "theorems": [
    "C05_always",
    "C05_delivers",
    "C05_catches_up",
    "C05_limit_needed"
   ],
   "note": "Arrivals and polls interleave arbitrarily; each is atomic, which C02 justifies for the ring. Also at every intermediate moment, and that the limit is needed."
  },
  {
   "property": "C06",
   "status": "proved",
   "theorems": [
    "C06_shift_exact",
    "C06_always_normalised"
   ],
   "note": ""
  },
  {
   "property": "C07",
   "status": "partial",
   "theorems": [
    "C07_bend_partial",
    "C07_bend_refuted"
   ],
   "note": "Proved whenever the bent note stays on the scale 0..255 semitones; refuted in general (bending a low note down wraps to a high pitch)."
  },
  {
   "property": "C08",
   "status": "proved",
   "theorems": [
    "C08_fields_fit",
    "C08_monotone",
    "C08_octave"
   ],
   "note": ""
  },
  {
   "property": "C09",
   "status": "partial",
   "theorems": [
    "C09_fits",
    "C09_monotone_partial",
    "C09_clamped_partial",
    "C09_monotone_refuted"
   ],
   "note": "Field width for every pitch; monotone and clamped up to pitch 254; refuted at pitch 255 with non-zero cents (next semitone wraps to 0)."
  },
  {
   "property": "C10",
   "status": "partial",
   "theorems": [
    "C10_playing_law",
    "C10_sounds_partial",
    "C10_level_law",
    "C10_volume_reaches_chip"
   ],
   "note": "The level law, that a volume change puts those levels in the chip, and that on a sounding FM channel the carrier levels in the chip are those of its volume and velocity, louder for more of either (C10_playing_law, C10_sounds_partial, with the histories that C10_sounds_partial excludes)."
  },
  {
   "property": "C11",
   "status": "proved",
   "theorems": [
    "C11_loudness_law",
    "C11_sent_level"
   ],
   "note": "Law for every volume, velocity, envelope byte; and the level on the chip follows it after every history without envelope loads (after a load the level follows from the next frame on)."
  },
  {
   "property": "C12",
   "status": "proved",
   "theorems": [
    "C12_setter_effect",
    "C12_frequency_effect",
    "C12_special_frequency_effect",
    "C12_key_effect",
    "C12_only_keying_calls_key",
    "C12_init_silences",
    "C12_distinct_registers",
    "C12_isolation",
    "C12_total"
   ],
   "note": "All synthesizer calls with legal arguments, from any state."
  },
  {
   "property": "C13",
   "status": "partial",
   "theorems": [
    "C13_parameters_mirrored",
    "C13_pitch_mirrored_partial",
    "C13_levels_mirrored_partial",
    "C13_pitch_refuted",
    "C13_special_volume_refuted",
    "C13_interface"
   ],
   "note": "All managed registers mirrored after any history without raw writes to managed registers, except reported frequency after a preset load (C13_pitch_refuted) and total level after an algorithm change or special-mode volume (C14_refuted, C13_special_volume_refuted); exact positive statements for both proved. C13_interface lifts the parameter part to histories of the whole interface."
  },
  {
   "property": "C14",
   "status": "partial",
   "theorems": [
    "C14_refuted",
    "C14_algorithm_partial",
    "C14_preset_keeps_volume"
   ],
   "note": "False in general (C14_refuted); proved at full volume or when the set of output operators is unchanged, and for preset loads."
  },
  {
   "property": "C15",
   "status": "proved",
   "theorems": [
    "C15_preset_round_trip",
    "C15_preset_in_chip"
   ],
   "note": ""
  },
  {
   "property": "C16",
   "status": "proved",
   "theorems": [
    "C16_bus_discipline",
    "C16_interface"
   ],
   "note": "Z80 bus as an explicit hardware bit; SGDK bus calls modelled as events. Both for synthesizer call histories and for histories of the whole interface."
  },
  {
   "property": "C17",
   "status": "proved",
   "theorems": [
    "C17_round_trip"
   ],
   "note": "Any memory content and any program; presets whose fields fit their widths."
  },
  {
   "property": "C18",
   "status": "proved",
   "theorems": [
    "C18_map",
    "C18_initial"
   ],
   "note": "Any initial memory of at least 4640 bytes."
  },
  {
   "property": "C19",
   "status": "proved",
   "theorems": [
    "C19_burst_rejected"
   ],
   "note": "Any slot that loads as a preset, not only slots written by this code; damage anywhere in the 36 bytes including the checksum."
  },
  {
   "property": "C20",
   "status": "proved",
   "theorems": [
    "C20_is_crc_ccitt_false",
    "C20_fits_16_bits",
    "C20_difference_linear",
    "C20_residue",
    "C20_detects_bursts"
   ],
   "note": "All byte strings; also residue and burst detection."
  },
  {
   "property": "C21",
   "status": "partial",
   "theorems": [
    "C21_refuted",
    "C21_other_programs",
    "C21_clear_atomic_partial",
    "C21_edit_atomic_partial"
   ],
   "note": "Other programs: proved for every crash point. Affected program: proved for clear and for saves over a preset differing in one parameter; refuted in general (C21_refuted): a torn image can carry a matching checksum and load as a third preset."
  },
  {
   "property": "C22",
   "status": "partial",
   "theorems": [
    "C22_refuted",
    "C22_memory_unused",
    "C22_rom_presets"
   ],
   "note": "False: proved refuted for every ROM; start-up never loads stored presets and the interface never writes cartridge memory."
  },
  {
   "property": "C23",
   "status": "partial",
   "theorems": [
    "C23_refuted",
    "C23_load_refuted",
    "C23_absent_partial"
   ],
   "note": "False in every state with SRAM (C23_refuted, C23_load_refuted): ownership is always inverted. Holds without SRAM."
  },
  {
   "property": "C24",
   "status": "proved",
   "theorems": [
    "C24_envelope_safety"
   ],
   "note": "Every history of calls with legal arguments, including resets and loads mid-note; a loadable envelope has its end marker within 256 bytes."
  },
  {
   "property": "C25",
   "status": "proved",
   "theorems": [
    "C25_release_silences",
    "C25_release_silences_despite_loads",
    "C25_silent_within_256_frames"
   ],
   "note": "Histories without a later reset (a reset leaves the chip sounding, see C27)."
  },
  {
   "property": "C26",
   "status": "proved",
   "theorems": [
    "C26_held_note_keeps_sounding"
   ],
   "note": "Includes envelope loads while held; exact bytes played: C67."
  },
  {
   "property": "C27",
   "status": "partial",
   "theorems": [
    "C27_chip_mirror_partial",
    "C27_chip_mirror_refuted",
    "C27_interface_partial",
    "C27_interface_refuted"
   ],
   "note": "Proved for histories without a later reset; refuted with one: a reset during a note leaves the PSG channel sounding on the chip."
  },
  {
   "property": "C28",
   "status": "proved",
   "theorems": [
    "C28_held_notes_refine_list",
    "C28_at_most_ten"
   ],
   "note": ""
  },
  {
   "property": "C29",
   "status": "partial",
   "theorems": [
    "C29_nested_partial",
    "C29_one_release_partial",
    "C29_legato_partial",
    "C29_refuted",
    "C29_order_refuted"
   ],
   "note": "False in general (C29_refuted, C29_order_refuted). Proved for idle channels in the static mapping without portamento: nested presses and releases, any one release out of order, legato lines; keys 1..127, at most 10 held."
  },
  {
   "property": "C30",
   "status": "partial",
   "theorems": [
    "C30_only_key_partial",
    "C30_note_off_partial",
    "C30_voice_released",
    "C30_refuted",
    "C30_chip_partial"
   ],
   "note": "Every history without the portamento switch (CC 65), every mode; refuted when portamento is switched off during a glide. At the chip (C30_chip_partial): after Note Off no FM channel that is keyed on plays that note for that channel; excludes in addition raw register writes, Reset All Controllers, the DAC switch, and re-assignment together with a General MIDI reset. With one key down (C30_only_key_partial) only the DAC switch is excluded."
  },
  {
   "property": "C31",
   "status": "partial",
   "theorems": [
    "C31_keys_partial",
    "C31_silent_partial",
    "C31_reset_controllers_refuted",
    "C31_dac_refuted",
    "C31_remap_refuted"
   ],
   "note": "Whole interface, every history without raw register writes, Reset All Controllers and the DAC switch, and without re-assignment or without General MIDI resets; also: all keys released means all FM channels keyed off. Each exclusion but raw writes is refuted with a history that leaves a key hanging."
  },
  {
   "property": "C32",
   "status": "proved",
   "theorems": [
    "C32_velocity_zero_message",
    "C32_velocity_zero_history"
   ],
   "note": "Same state and same calls to the sound layers, for messages and whole histories."
  },
  {
   "property": "C33",
   "status": "partial",
   "theorems": [
    "C33_all_notes_off_partial",
    "C33_refuted",
    "C33_chip_partial",
    "C33_mute_refuted",
    "C33_glide_refuted"
   ],
   "note": "Nothing sounds on the channel, every voice serving it is told to stop and no other voice is touched; at the chip every FM channel serving it is keyed off (C33_chip_partial). Refuted: remembered keys are not forgotten (C33_refuted), and a player that stops notes only this way mutes the channel for good with the tenth note (C33_mute_refuted, for every such history), with portamento already with the first (C33_glide_refuted)."
  },
  {
   "property": "C34",
   "status": "partial",
   "theorems": [
    "C34_never_steals",
    "C34_placed_partial",
    "C34_refuted"
   ],
   "note": "Never steals: all states and modes. Work-conserving with stick-to-device-type and portamento off; refuted with stick-to-device-type on."
  },
  {
   "property": "C35",
   "status": "proved",
   "theorems": [
    "C35_percussion_not_on_psg",
    "C35_percussion_limit"
   ],
   "note": "The limit of two holds for every history without the manual remap SysEx, which assigns statically."
  },
  {
   "property": "C36",
   "status": "partial",
   "theorems": [
    "C36_static_routing_partial",
    "C36_refuted",
    "C36_static_note_plays",
    "C36_registers_partial"
   ],
   "note": "All sound calls of note, volume, pan, program, bend messages go to the own voice and no other device or MIDI channel changes; every register and PSG write they cause belongs to that voice (C36_registers_partial). Refuted for the percussion flag: a note on channel 10 marks FM channel 4 percussive."
  },
  {
   "property": "C37",
   "status": "proved",
   "theorems": [
    "C37_mapping_valid",
    "C37_bad_remap_ignored",
    "C37_good_remap_done"
   ],
   "note": "Every byte string, also bytes above 127."
  },
  {
   "property": "C38",
   "status": "partial",
   "theorems": [
    "C38_other_settings",
    "C38_other_devices_partial",
    "C38_refuted",
    "C38_fm_registers_partial",
    "C38_psg_registers_partial",
    "C38_controller_refuted",
    "C38_special_refuted"
   ],
   "note": "Stored settings: every channel message. Device channels and chip registers: all except poly mode, reset all controllers and DAC. Refuted for FM parameter controllers on PSG channels, which write the FM channel of the same number (C38_controller_refuted), and for special mode voices, which write operators of FM channel 3 (C38_special_refuted)."
  },
  {
   "property": "C39",
   "status": "partial",
   "theorems": [
    "C39_side_sounds_partial",
    "C39_level_sounds_partial",
    "C39_settings_stored",
    "C39_volume_reaches",
    "C39_pan_reaches",
    "C39_program_reaches",
    "C39_note_on_synced",
    "C39_sounding_settings"
   ],
   "note": "MIDI layer: settings stored, sent to every serving voice, and sent before a later note starts. At the chip: pan, instrument (C62_melodic_instrument_partial) and levels of every sounding FM channel follow the settings of its MIDI channel, in every history without re-assignment, DAC switch, raw writes and controllers that overrule them."
  },
  {
   "property": "C40",
   "status": "partial",
   "theorems": [
    "C40_bend_range_partial",
    "C40_refuted"
   ],
   "note": "Every history for registered parameters; refuted for non-registered parameters (selection ignored)."
  },
  {
   "property": "C41",
   "status": "partial",
   "theorems": [
    "C41_glide_partial",
    "C41_frame_sounds",
    "C41_refuted"
   ],
   "note": "Any number of frames, every time, all targets except those closer to key 0 than one step; refuted there (wraps to a high pitch)."
  },
  {
   "property": "C42",
   "status": "partial",
   "theorems": [
    "C42_no_hung_notes_partial",
    "C42_all_released_partial",
    "C42_refuted",
    "C42_mode_refuted",
    "C42_chip_partial"
   ],
   "note": "Histories without the portamento switch and re-assignment; refuted for both. At the chip (C42_chip_partial): an FM channel keyed on plays a key that is held."
  },
  {
   "property": "C43",
   "status": "partial",
   "theorems": [
    "C43_ill_formed_ignored_partial",
    "C43_refuted"
   ],
   "note": "Every byte string not starting with the General MIDI header; a General MIDI message with extra bytes is obeyed (C43_refuted)."
  },
  {
   "property": "C44",
   "status": "partial",
   "theorems": [
    "C44_pong_partial",
    "C44_refuted"
   ],
   "note": "Exactly one reply, nothing else changes; payloads of at most one byte echoed; longer payloads truncated (C44_refuted)."
  },
  {
   "property": "C45",
   "status": "proved",
   "theorems": [
    "C45_store_dump",
    "C45_dump_store",
    "C45_clear_dump",
    "C45_factory_dump",
    "C45_keep_dump",
    "C45_keep_dump_static"
   ],
   "note": "End to end over all histories of the whole interface: store/dump, dump/store between two machines with different histories and ROM data, clears and reset, controller 87 against a channel dump and the chip."
  },
  {
   "property": "C46",
   "status": "partial",
   "theorems": [
    "C46_disabled_partial",
    "C46_refuted"
   ],
   "note": "All FM controllers and 78, 83, 85, 86; refuted for 80, 84, 87."
  },
  {
   "property": "C47",
   "status": "partial",
   "theorems": [
    "C47_controller_range_partial",
    "C47_total_level",
    "C47_refuted"
   ],
   "note": "Monotone onto the field for all FM controllers except sustain rate (refuted: only half the range); total level passes the value, inverted when asked."
  },
  {
   "property": "C48",
   "status": "partial",
   "theorems": [
    "C48_interface_partial",
    "C48_sample_refuted",
    "C48_envelope_refuted",
    "C48_dacless_partial",
    "C48_midi_layer_partial",
    "C48_midi_only_fault",
    "C48_refuted"
   ],
   "note": "Whole interface (MIDI and all sound layers): every well-formed history runs to the end with every table in order, except for exactly two failures, each refuted with a witness: an odd-length envelope upload and a DAC key without a sample. C48_dacless_partial: without the DAC switch and odd uploads nothing fails."
  },
  {
   "property": "C49",
   "status": "proved",
   "theorems": [
    "C49_reset_like_power_on"
   ],
   "note": "Whole interface, every history and every future, on any ROM contents; the writes and replies are equal event by event. Cartridge memory plays no part (see C22). Excluded before the reset: the registration of a change callback, an internal API call. What the reset itself leaves sounding on the PSG is C27."
  },
  {
   "property": "C50",
   "status": "proved",
   "theorems": [
    "C50_locks",
    "C50_one_transport",
    "C50_before",
    "C50_reads_served",
    "C50_only_failure"
   ],
   "note": "Any number of transports, any answers at each poll; waiting reads included."
  },
  {
   "property": "C51",
   "status": "proved",
   "theorems": [
    "C51_in_range",
    "C51_meaning",
    "C51_drawing"
   ],
   "note": "Every schedule of polls, reads, writes and frames; includes the meaning of the number shown."
  },
  {
   "property": "C52",
   "status": "partial",
   "theorems": [
    "C52_frames_accounted_partial",
    "C52_registration_order",
    "C52_tick_delivers_outstanding",
    "C52_frame_lost_refuted",
    "C52_registration_fits",
    "C52_registration_exactly_full"
   ],
   "note": "Proved: frame accounting, registration order, delivery of all outstanding frames by a tick that starts with them. Missing: frames falling while frame handlers run are lost (C52_frame_lost_refuted)."
  },
  {
   "property": "C53",
   "status": "proved",
   "theorems": [
    "C53_log_is_drop_oldest_queue"
   ],
   "note": "Capacity is nine although the array has ten slots. Main-loop use only; message text abstracted."
  },
  {
   "property": "C54",
   "status": "partial",
   "theorems": [
    "C54_dotted_shape",
    "C54_length",
    "C54_field_decimal_partial",
    "C54_field_decimal_refuted"
   ],
   "note": "Shape and length for every address; digits right exactly for bytes outside 100..109 and 200..209; refuted for those."
  },
  {
   "property": "C55",
   "status": "partial",
   "theorems": [
    "C55_decoding_partial",
    "C55_refuted"
   ],
   "note": "Every well-formed packet without the Z flag, with a list under 256 bytes, whose delta times hold none of 0xF0, 0xF7, 0xFF, long delta times only before a status byte, no data-less commands but System Reset. Each of the other kinds is refuted with a packet."
  },
  {
   "property": "C56",
   "status": "partial",
   "theorems": [
    "C56_round_trip_partial",
    "C56_refuted_long",
    "C56_refuted_realtime"
   ],
   "note": "Every message up to 255 bytes that carries data, and System Reset. Refuted for every longer message (packed, then rejected) and for every other data-less command (lost)."
  },
  {
   "property": "C57",
   "status": "partial",
   "theorems": [
    "C57_ends",
    "C57_overrun_partial",
    "C57_refuted"
   ],
   "note": "The parser always ends, proved for every packet. At most one byte behind the packet is read when no byte behind the header is 0xF0 or 0xF7; a cut-short command reads that byte and an unfinished SysEx any amount (C57_refuted)."
  },
  {
   "property": "C58",
   "status": "partial",
   "theorems": [
    "C58_answers",
    "C58_replied_partial",
    "C58_refuted_busy",
    "C58_refuted_clock"
   ],
   "note": "Contents of replies: every packet and session state, proved. That the reply goes out: in every history in which the transmitter is idle; refuted when it is busy (dropped), and the clock answer loses a carry."
  },
  {
   "property": "C59",
   "status": "partial",
   "theorems": [
    "C59_in_flight",
    "C59_order_partial",
    "C59_refuted"
   ],
   "note": "Buffer in flight untouched, one send at a time, accepted packets sent unchanged in order: every history. Bytes written while a packet is waiting or in flight are always lost (C59_refuted): there is no queue."
  },
  {
   "property": "C60",
   "status": "partial",
   "theorems": [
    "C60_feedback_partial",
    "C60_refuted"
   ],
   "note": "Rate, content and no repetition: every history. Sent without a session to strangers and to 0.0.0.0 after goodbye (C60_refuted)."
  },
  {
   "property": "C61",
   "status": "partial",
   "theorems": [
    "C61_playable_partial",
    "C61_refuted"
   ],
   "note": "Proved when the pad is not pressed both ways at once, with the stronger fact that at most one note sounds; otherwise refuted: the queue overflows inside a message and the interface hangs."
  },
  {
   "property": "C62",
   "status": "partial",
   "theorems": [
    "C62_melodic_instrument_partial",
    "C62_noise_refuted",
    "C62_second_reset_refuted",
    "C62_remap_refuted"
   ],
   "note": "Every sounding FM channel of a melodic MIDI channel plays the instrument it selected, in every history with percussion in General MIDI mode only and no further General MIDI reset after it, without re-assignment, DAC switch, raw writes, instrument edits and stored instruments. Refuted for percussion in static mode, a second General MIDI reset and re-assignment."
  },
  {
   "property": "C63",
   "status": "partial",
   "theorems": [
    "C63_static_partial",
    "C63_refuted"
   ],
   "note": "Static mapping; settings of other channels always (C38_other_settings); refuted in dynamic mode."
  },
  {
   "property": "C64",
   "status": "partial",
   "theorems": [
    "C64_between_partial",
    "C64_refuted"
   ],
   "note": "Between messages proved; inside a message refuted (C64_refuted)."
  },
  {
   "property": "C65",
   "status": "proved",
   "theorems": [
    "C65_parameter_notifications"
   ],
   "note": "All synthesizer calls. The registered callback is modelled as an event."
  },
  {
   "property": "C66",
   "status": "proved",
   "theorems": [
    "C66_shifted_pitch"
   ],
   "note": ""
  },
  {
   "property": "C67",
   "status": "proved",
   "theorems": [
    "C67_plain_envelope",
    "C67_held_loop",
    "C67_released_loop"
   ],
   "note": "Envelopes of the form data/end or data/loop/data/loop end/data/end with a non-empty loop."
  },
  {
   "property": "C68",
   "status": "partial",
   "theorems": [
    "C68_refuted",
    "C68_skipped"
   ],
   "note": "Refuted (C68_refuted): data bytes without status are skipped, harmlessly (C68_skipped)."
  },
  {
   "property": "C69",
   "status": "partial",
   "theorems": [
    "C69_startup",
    "C69_reset_refuted",
    "C69_truncated_refuted"
   ],
   "note": "Proved for complete messages without a reset; a reset message in the sequence never ends and a truncated message stops the console (C69_reset_refuted, C69_truncated_refuted)."
  },
  {
   "property": "C70",
   "status": "partial",
   "theorems": [
    "C70_refuted"
   ],
   "note": "Refuted in every such state (C70_refuted): NULL call. C50_only_failure shows it is the only failure."
  },
  {
   "property": "C71",
   "status": "partial",
   "theorems": [
    "C71_pitch_partial",
    "C71_voice",
    "C71_side_partial",
    "C71_instrument_partial",
    "C71_level_partial",
    "C71_drum_instrument_partial",
    "C71_drum_level_partial",
    "C71_heard_partial",
    "C71_underflow_refuted"
   ],
   "note": "All histories of the whole interface: pitch, voice, side, instrument and level of a struck FM channel read off the chip registers, and (default mode) that the note is struck at all. Missing: raw register writes, and per clause the messages named in its hypotheses (DAC switch, re-assignment, instrument edits, stored presets). Negative pitch sums are refuted (C71_underflow_refuted): they wrap to an audible key."
  },
  {
   "property": "C72",
   "status": "partial",
   "theorems": [
    "C72_bend_partial",
    "C72_others_partial",
    "C72_drum_refuted"
   ],
   "note": "All histories: bent voices keep their key and get exactly the bent pitch; all other FM channels keep key and pitch. Refuted for drums (C72_drum_refuted): a bend moves a drum from its own key to the struck key. Missing: raw register writes, DAC switch and re-assignment, totals outside 0-25599 cents."
  },
  {
   "property": "C73",
   "status": "partial",
   "theorems": [
    "C73_selected_partial",
    "C73_reselect_refuted"
   ],
   "note": "All histories, every FM channel serving the MIDI channel, if the channel was at another program before the selection. Refuted otherwise (C73_reselect_refuted): a program the channel is already at is not loaded again, so e.g. a new instrument for program 0 is not heard after power-on. Missing: raw register writes."
  },
  {
   "property": "C74",
   "status": "partial",
   "theorems": [
    "C74_notes_partial",
    "C74_refuted"
   ],
   "note": "Every history: silence, and every note from key 22 up, named right. Keys 1 to 21 appear as ???, key 0 not at all (C74_refuted)."
  },
  {
   "property": "C75",
   "status": "partial",
   "theorems": [
    "C75_mappings_partial",
    "C75_refuted"
   ],
   "note": "Every history with at least one device not on MIDI channel 1; with all ten on channel 1 the old numbers stay (C75_refuted)."
  },
  {
   "property": "C76",
   "status": "partial",
   "theorems": [
    "C76_controller",
    "C76_program",
    "C76_refuted"
   ],
   "note": "Every history, all devices, controllers and values: shown for 150 frames, then gone. A shorter program text leaves the tail of an earlier controller standing (C76_refuted)."
  },
  {
   "property": "C77",
   "status": "partial",
   "theorems": [
    "C77_switch",
    "C77_hidden",
    "C77_panel_partial",
    "C77_refuted",
    "C77_reset_refuted"
   ],
   "note": "Switching and hiding: every history. Contents: every history for channels some FM channel plays and without a system reset after switching on; both exclusions refuted."
  },
  {
   "property": "C78",
   "status": "partial",
   "theorems": [
    "C78_harmless_partial",
    "C78_passive",
    "C78_total_partial",
    "C78_refuted"
   ],
   "note": "Every history without the portamento switch (C78_passive: without exception whenever drawing succeeds); an overshooting glide makes the screen read past the table of note names (C78_refuted)."
  },
  {
   "property": "C79",
   "status": "proved",
   "theorems": [
    "C79_icons",
    "C79_transport",
    "C79_waiting",
    "C79_stays"
   ],
   "note": "Every history, every transport, both builds."
  },
  {
   "property": "C80",
   "status": "proved",
   "theorems": [
    "C80_texts"
   ],
   "note": "Every history; log messages of any length."
  },
  {
   "property": "C81",
   "status": "partial",
   "theorems": [
    "C81_log",
    "C81_refuted"
   ],
   "note": "The message itself: every history. The rest of its line may show the end of an earlier, longer message (C81_refuted)."
  },
  {
   "property": "C82",
   "status": "proved",
   "theorems": [
    "C82_power_on",
    "C82_cartridge",
    "C82_gone"
   ],
   "note": "Every build, memory and register content."
  },
  {
   "property": "C83",
   "status": "proved",
   "theorems": [
    "C83_lamps"
   ],
   "note": "Every history of messages and frames of the screen model; the counters at a measurement are arbitrary non-negative numbers (what they count is C51)."
  },
  {
   "property": "C84",
   "status": "partial",
   "theorems": [
    "C84_once_partial",
    "C84_held_partial"
   ],
   "note": "Every history before the note without re-assignment of device channels (CC 84, CC 121, SysEx 0 and 3) and System Reset; portamento off; notes from 45, the range the PSG driver accepts. While the note sounds: every traffic that does not concern its keys, portamento, fine tuning, envelope uploads or resets."
  },
  {
   "property": "C85",
   "status": "partial",
   "theorems": [
    "C85_released_partial",
    "C85_silent_partial"
   ],
   "note": "As C84; release by All Notes Off, All Sound Off, or in static mode Note Off when no other key of the channel is down. After it: nothing for that MIDI channel and in dynamic mode no new notes."
  },
  {
   "property": "C86",
   "status": "partial",
   "theorems": [
    "C86_in_order",
    "C86_all",
    "C86_catches_up",
    "C86_room",
    "C86_runs_on_partial"
   ],
   "note": "Order, completeness, delivery time and room: every interleaving. That it never stops: unless the sample channel is switched on (CC 78, see C48) or half a byte of an envelope is uploaded (see C27)."
  },
  {
   "property": "C87",
   "status": "partial",
   "theorems": [
    "C87_frames",
    "C87_stalls",
    "C87_refuted"
   ],
   "note": "At most one frame per blank: always; exactly one: when the main loop keeps up with the screen. It does not while a message is incomplete (C87_stalls, C87_refuted)."
  },
  {
   "property": "C88",
   "status": "partial",
   "theorems": [
    "C88_silent_partial",
    "C88_held_partial",
    "C88_heard_partial",
    "C88_voice_partial"
   ],
   "note": "Serial transport. The conditions of C31 and C71 on the messages (no raw register writes, sample channel off, no portamento, no re-assignment of device channels; static mode and playable pitches for Note On)."
  },
  {
   "property": "C89",
   "status": "partial",
   "theorems": [
    "C89_held_partial",
    "C89_once_partial",
    "C89_released_partial"
   ],
   "note": "Serial transport, static mode, the conditions of C84 and C85; interleavings in which every blank finds the earlier ones seen to."
  },
  {
   "property": "C90",
   "status": "proved",
   "theorems": [
    "C90_sends"
   ],
   "note": "Serial port 2 (the configured port) and EverDrive X7; the hardware is any sequence of register answers."
  },
  {
   "property": "C91",
   "status": "proved",
   "theorems": [
    "C91_frames",
    "C91_unique"
   ],
   "note": "Messages up to 65535 bytes, the range of the length parameter."
  },
  {
   "property": "C92",
   "status": "proved",
   "theorems": [
    "C92_one",
    "C92_fifo"
   ],
   "note": "The hardware is any sequence of register answers."
  },
  {
   "property": "C93",
   "status": "partial",
   "theorems": [
    "C93_refuted",
    "C93_light_partial"
   ],
   "note": "False if presets are saved or cleared between (C93_refuted); otherwise every history."
  },
  {
   "property": "C94",
   "status": "proved",
   "theorems": [
    "C94_received",
    "C94_overrun"
   ],
   "note": "An interrupt and a read of the main loop are atomic here; their memory accesses are interleaved in C02."
  },
  {
   "property": "C95",
   "status": "partial",
   "theorems": [
    "C95_refuted",
    "C95_startup_partial"
   ],
   "note": "False for an interrupt between two steps (C95_refuted); every other moment."
  },
  {
   "property": "C96",
   "status": "proved",
   "theorems": [
    "C96_map",
    "C96_legal",
    "C96_possible",
    "C96_absent"
   ],
   "note": "The cartridge answers reads of mapped memory with its content (honest); odd bytes of the mapped window, as wired in both cartridges."
  },
  {
   "property": "C97",
   "status": "partial",
   "theorems": [
    "C97_quiet",
    "C97_restored_refuted",
    "C97_restored_partial"
   ],
   "note": "Interrupts off during accesses: always. Settings afterwards as before: only if both interrupts were on (C97_restored_refuted)."
  },
  {
   "property": "C98",
   "status": "proved",
   "theorems": [
    "C98_edits",
    "C98_served",
    "C98_off"
   ],
   "note": "Histories without raw register writes, which change registers behind the program (C99). The dial of the sustain rate covers half its range (C47_refuted)."
  },
  {
   "property": "C99",
   "status": "proved",
   "theorems": [
    "C99_written",
    "C99_ignored"
   ],
   "note": "In full."
  },
  {
   "property": "C100",
   "status": "partial",
   "theorems": [
    "C100_starts_partial",
    "C100_stops_partial",
    "C100_all_notes_off_refuted",
    "C100_reset_refuted"
   ],
   "note": "Fixed assignment, no portamento, fewer than ten keys held, keys inside the sample table. All Notes Off and Reset All Controllers refuted."
  },
  {
   "property": "C101",
   "status": "partial",
   "theorems": [
    "C101_pitch_partial",
    "C101_release",
    "C101_silence_refuted"
   ],
   "note": "Fixed assignment, no portamento, fewer than ten keys held, keys 11 to 106 after bending. Silence after release refuted; C101_release: nothing is sent."
  },
  {
   "property": "C102",
   "status": "partial",
   "theorems": [
    "C102_levels_partial",
    "C102_refuted"
   ],
   "note": "Fixed assignment; whenever the level differs from the one kept, or the chip holds the level kept. Refuted otherwise (C102_refuted, the stale levels of C14)."
  },
  {
   "property": "C103",
   "status": "partial",
   "theorems": [
    "C103_performed_partial",
    "C103_plays_partial",
    "C103_packets"
   ],
   "note": "Packets within RtpSpec.handled (C55); the network as the only transport in use; a poll and the reading after it atomic. Every such packet is a list of messages (C103_packets)."
  },
  {
   "property": "C104",
   "status": "partial",
   "theorems": [
    "C104_answers_partial",
    "C104_asked",
    "C104_power_on",
    "C104_refuted"
   ],
   "note": "That only requests are answered is proved for every history (C104_asked, C104_power_on), and over the network each write is one whole answer. That every answer is sent is refuted: the second of two in one packet is dropped (C104_refuted)."
  },
  {
   "property": "C105",
   "status": "partial",
   "theorems": [
    "C105_stuck",
    "C105_refuted"
   ],
   "note": "Refuted: a MIDI clock and a program change in one packet leave the reader waiting for ever (C105_refuted, C105_stuck). Holds for the packets of C103."
  },
  {
   "property": "C106",
   "status": "partial",
   "theorems": [
    "C106_listens",
    "C106_told",
    "C106_ports",
    "C106_absent",
    "C106_waits",
    "C106_deaf",
    "C106_in_use",
    "C106_refuted"
   ],
   "note": "Refuted that joining is required: a failed association is ignored and an address announced (C106_refuted). All else in full."
  },
  {
   "property": "C107",
   "status": "proved",
   "theorems": [
    "C107_order",
    "C107_recognises"
   ],
   "note": "In full."
  },
  {
   "property": "C108",
   "status": "partial",
   "theorems": [
    "C108_runs_on_partial",
    "C108_silent_partial",
    "C108_held_partial",
    "C108_heard_partial",
    "C108_voice_partial",
    "C108_envelope_partial",
    "C108_released_partial"
   ],
   "note": "The packets of C103 and the conditions of C31, C71, C84 and C85 (no raw register writes, sample channel off, no portamento, no re-assignment of device channels; playable pitches)."
  },
  {
   "property": "C109",
   "status": "partial",
   "theorems": [
    "C109_choice",
    "C109_for_good",
    "C109_performed",
    "C109_all",
    "C109_replies",
    "C109_runs_on_partial",
    "C109_every_transport_refuted"
   ],
   "note": "C109_runs_on_partial: sample channel off and no half byte of an envelope; the transports are queues. That any transport is heard while the interface is idle is refuted (C109_every_transport_refuted). All else in full."
  },
  {
   "property": "C110",
   "status": "partial",
   "theorems": [
    "C110_line_partial",
    "C110_ends_partial",
    "C110_arrives",
    "C110_legato_refuted",
    "C110_smooth_refuted"
   ],
   "note": "Static mapping, FM channels: struck once, slid by the portamento speed each frame at the bent and tuned pitch, arrives, and ends with the last key. Missing: releases of an older key, other controllers of the channel during the line, keys below 12. Refuted: a key after the release of an older one is struck anew (C110_legato_refuted); the last semitone downwards is jumped (C110_smooth_refuted)."
  },
  {
   "property": "C111",
   "status": "partial",
   "theorems": [
    "C111_chord_partial",
    "C111_song_partial",
    "C111_portamento_refuted",
    "C111_silence_refuted",
    "C111_drum_refuted"
   ],
   "note": "From the request for the mode on, with keys at pitches the FM chip has: own voice per key, FM channels on exactly for held keys, at the bent pitch; after a General MIDI reset also with instrument, side and level (C111_song_partial). Drums have FM channels of their own and sound as the drum. Missing: a key pressed again while held, a third drum, programs and bends on channel 10 while a drum is held (programs refuted, C111_drum_refuted), controllers other than volume, pan and voice group, pitch on the PSG. Refuted with portamento on: a key is lost (C111_portamento_refuted), and one of another channel sticks (C111_silence_refuted)."
  },
  {
   "property": "C112",
   "status": "partial",
   "theorems": [
    "C112_recognised",
    "C112_hands_off",
    "C112_chosen",
    "C112_one",
    "C112_runs_on",
    "C112_storage_refuted",
    "C112_storage_idle"
   ],
   "note": "The hardware is any sequence of register answers; MegaWiFi and the demo are one further transport without accesses. That the memory of a recognised cartridge is used is refuted (C112_storage_refuted, C112_storage_idle). All else in full."
  },
  {
   "property": "C113",
   "status": "partial",
   "theorems": [
    "C113_range_partial",
    "C113_keys_partial",
    "C113_others_partial",
    "C113_centred_partial",
    "C113_fading_refuted",
    "C113_fine_refuted",
    "C113_stored"
   ],
   "note": "FM channels: sounding bent notes follow the new range, all else keeps its pitch and every key its state; stored controllers write nothing to any chip after any history (C113_stored, in full). Missing: raw register writes, the DAC switch, re-assignment, totals outside 256 keys. PSG notes follow range and tuning by C84. Refuted: a fading note drops to the lowest octave (C113_fading_refuted); fine tuning does not reach sounding notes (C113_fine_refuted)."
  },
  {
   "property": "C114",
   "status": "partial",
   "theorems": [
    "C114_silent_partial",
    "C114_held_partial",
    "C114_heard_partial",
    "C114_voice_partial",
    "C114_across_refuted"
   ],
   "note": "FM notes over the transports of C109, with the conditions of C31 and C71 on the messages. Missing: PSG notes, whose envelopes depend on the frames between messages. Refuted: a key pressed over one transport is not released over another (C114_across_refuted)."
  },
  {
   "property": "C115",
   "status": "partial",
   "theorems": [
    "C115_table",
    "C115_heard_partial",
    "C115_chord_partial",
    "C115_left",
    "C115_quiet",
    "C115_hangs_refuted"
   ],
   "note": "Table (C115_table), channels left without device (C115_left) and silence of the request (C115_quiet): every history, the first two without requests for dynamic mode. Notes: FM channels; MIDI channels with one device channel without portamento, and with several while an FM channel of theirs is silent (C115_chord_partial, every mode); no percussion, sample channel or raw register writes. Their release: C30_only_key_partial. Refuted: a note sounding while its channel is given away hangs (C115_hangs_refuted)."
  },
  {
   "property": "C116",
   "status": "proved",
   "theorems": [
    "C116_on",
    "C116_keeps",
    "C116_third_refuted",
    "C116_off"
   ],
   "note": "Every history in which the message is performed (histories stop at a sample index beyond the table, C48). Corollary C116_keeps: voices of other MIDI channels are not written to; FM channel 3 is excepted, for which it is refuted (C116_third_refuted)."
  }
 ]
}
