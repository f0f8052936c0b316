# Formal model of the Mega Drive MIDI Interface

## 1. What is here

* `properties.jsonl` – the properties (C01 …).
* `rocq/theories/*Model.v` – Gallina transcription of the C code in `/repo/src`,
  function by function. Each definition cites the file and lines it models.
* `rocq/theories/*Spec.v` – small independent specifications (queues, chip
  register file, decimal text, polynomial CRC, …) used to state properties.
* `rocq/theories/*Proofs.v` – lemmas.
* `rocq/theories/*Properties.v` – only the property theorems (each closed by
  `exact`), each followed by `Print Assumptions`, with non-vacuity `Example`s.
* `MANIFEST.json` – property → theorems. `seeded/LOG.jsonl` – mutation tests.
  Thirteen of the 487 runs are not in the log because they gave no usable result: in three the edit
  did not apply, and in ten a file stopped at an error the test script could not step over, so the
  list of failing theorems is incomplete. The last batch was cut short after two of its seven edits.

## 2. Trusted base

* The Coq 8.16.1 kernel (including its `vm_compute` reduction machine).
* The axioms listed by `Print Assumptions` under each theorem. The goal is
  "Closed under the global context" everywhere; any exception is listed in
  section 7.
* The reading of the C code: the model is a hand transcription; it is not
  extracted from, or run against, the C program.
* Environment assumptions (section 4).

No axiom, `Parameter`, `Admitted`, module functor, or disabled kernel check is
used. Section variables are only used inside `Section … End` and are
generalised away.

## 3. Modelling conventions

* C integers are `Z`; every store into a `u8/s8/u16/s16/u32` object or bit-field
  is followed by an explicit wrap (`u8 x = x mod 256`, …). C `/` on possibly
  negative `int`s is `Z.quot`, `%` is `Z.rem`. `int` is taken as 32-bit
  (m68k-gcc); all `int` intermediate values occurring here fit.
* Undefined behaviour is a distinct outcome: a step either returns
  `Done value state outputs` or `Fault f` where `f` names the out-of-bounds
  read/write, null dereference, die or hang. Nothing is totalised with a
  default value: array reads go through a checked lookup.
* Outputs are a trace of hardware events in program order (YM2612 register
  write, PSG tone / attenuation write, Z80 driver load, bus request/release,
  PCM start/stop, transmitted MIDI bytes, UI callbacks). A separate, small
  hardware interpretation (`*Spec.v`) turns a trace into chip state.
* ROM data (presets, percussion presets, envelopes, PCM sample table) is a
  record parameter constrained by a boolean well-formedness predicate; the
  actual tables of `presets.c`/`envelopes.c` are transcribed to show that the
  real ROM satisfies it.
* Pointers into PSG envelopes are (buffer, index) pairs; pointers to user
  presets are an "active" flag.

## 4. Environment assumptions

* SGDK: `YM2612_writeReg(part, reg, data)` puts `data` in register `reg` of
  `part`; `PSG_setTone`/`PSG_setEnvelope` set the tone/attenuation latch;
  `Z80_requestBus` takes the bus, `Z80_releaseBus` frees it,
  `Z80_getAndRequestBus` takes it and returns whether it was already taken;
  after `Z80_loadDriver` the bus is free. `SYS_isPAL()` is constant.
* Main-loop code is not re-entered; only the serial receive interrupt and the
  V-blank interrupt are asynchronous (they are modelled as interleaved steps
  where a property concerns them).
* The MegaWiFi library: a send started by the interface completes by calling
  the given callback at some later poll; it does not modify the buffer. It calls
  back only from `mw_process`, writes the receive buffer only while a receive is
  armed, and delivers datagrams of 6 (address) to 1460 bytes. Theorems about order
  of sending further assume it reports as sent only what it is sending (`honest`).

## 5. Modelled and not modelled

Modelled now (file → theory): `comm/ring_buf.c` → RingBufModel, RingSpscModel
(memory-access granularity); `pitchcents.c` and the pitch tables of
`midi_fm.c`/`midi_psg.c` → PitchModel; `note_priority.c` → NotePriorityModel;
`comm/ip_util.c` → IpUtilModel; `log.c` → LogModel; `sram/crc.c` → CrcModel;
`scheduler.c` and the registrations of start-up → SchedulerModel; `synth.c`
(all of it) → SynthModel; `midi_psg.c` and `envelopes.c` → PsgModel; `midi.c` (all
messages, SysEx commands, frame tick, reset; the sound layers appear as the calls
made through the vtables) → MidiModel; `sram/sram.c` and `sram/midi_fm_sram.c` →
SramModel (memory as one byte per offset; cartridge bank switching and interrupt
masking are in BusModel); `midi_rx.c` → RxModel (a reading function is a tree that asks
for bytes; debug printing left out); `comm/comm_serial.c` → SerialModel (an arrival
and a poll are atomic; finer interleavings are RingSpscModel's; the low-space log
warning is left out); `comm/comm.c` and the load meter of `ui.c` → CommModel (a
transport is its answers to the presence and readiness questions);
`comm/comm_demo.c` → DemoModel (joined to the reading loop; demo mode is the only
transport with data).

`midi_fm.c`, `midi_fm_sm.c`, `midi_dac.c`, `midi_tx.c` → DevModel (what each call
made by MidiModel does to SynthModel, PsgModel and SramModel); start-up order of
`main.c`, the frame callbacks and the whole message loop → AppModel; the shipped
preset, percussion, envelope and sample tables → RomData (transcribed; theorems take
any tables satisfying `rom_ok`).

`comm/rtpmidi.c` → RtpModel (packet parser and builder; the memory behind a packet
is explicit); `comm/applemidi.c` → AppleModel; `comm/comm_megawifi.c` from the moment
it listens → NetModel (each poll takes any callbacks and answers of the MegaWiFi
library). Its start-up (module detection, association, opening of the ports, the log
messages by what they tell) → NetStartModel, with arbitrary answers of the library;
what the rounds of the main loop do during its yields is left out. utils.c memcmp is
there too.

`ui.c` and `ui_fm.c` → UiModel (a screen cell is a character or a tile of a picture;
palettes, fonts, the build text of the title row and the texts that `settings.h`
switches off are left out; the log reaches it as any message at any frame).

The running interface → MachineModel: the main loop of `main.c` and `scheduler.c` with the
tick handler of `midi_rx.c`, SerialModel's interrupt and the vertical blank interrupt, all
on top of AppModel (a step of the main loop is atomic; the serial port is the only
transport with data; the screen, demo mode and cartridge LED handlers do nothing; build
without MegaWiFi).

The interface played over the network → WifiModel: the same main loop in a build with
MegaWiFi, NetModel's poll followed by the reading loop of `midi_rx.c`/`comm.c` on
AppModel, with the answers going back through NetModel (the network is the transport in
use; a poll, the reading that follows it and a frame are each atomic; frames come at any
moment between them; a reader left inside a message waits in `comm_read`, as in the code).

The interface with several transports → HubModel: `comm/comm.c` (CommModel) choosing among
any number of transports, under the tick handler of `midi_rx.c`, on AppModel, with the
answers going back through `comm_write` (a transport is a queue of bytes that keeps what
it has received, is there or not for good, and takes an answer when asked to; one byte is
read per poll; frames come at any moment between messages).

The drivers as sequences of bus accesses → BusModel: `mem.c`, `comm/serial.c`,
`comm/comm_serial.c`, `comm/comm_everdrive.c`, `comm/comm_everdrive_pro.c`,
`comm/everdrive_led.c`, `sram/sram_ed_pro.c`, `sram/sram_ed_x7.c`, `sys_wraps.c`, the
sending and reading of `comm.c`, and `sram.c`/`midi_fm_sram.c` on top of them. What the
hardware answers to a read is any list of values; a loop that outlives the list waits.
SGDK's VDP register copies, interrupt mask and Z80 bus request are part of the state.
Log messages and the load counters are left out. Detection of cartridges at start-up
(`comm_everdrive_init`, `comm_everdrive_pro_init`, `sram_init`, their order in `main.c`) and
the choice of the transport in terms of bus accesses (`comm.c:63-127`) → CartModel, in which
MegaWiFi and the demo are one further transport without accesses.

Not modelled: text of log messages, `mw_uart.c`, UART/LSD/MegaWiFi firmware
protocol, `printf`-family formatting, timing in cycles.

## 6. Plan per property

| id | model | proof |
|----|-------|-------|
| C01 | RingBufModel | refinement to list queue, induction over operations |
| C02 | RingBufModel at memory-access granularity | invariant over interleavings |
| C03 | RxModel (parser over input list) | induction over message list; encode then parse |
| C04 | RxModel | induction over stream |
| C05 | ring + parser composition | invariant on schedule: FIFO content ++ arrived |
| C06, C07 | PitchModel | arithmetic; C07 wrap-around refuted, in-range part proved |
| C08, C09 | PitchModel/FmModel/PsgModel tables | finite sweep lifted, monotone by adjacent steps |
| C10, C11 | SynthModel/PsgModel | arithmetic lemma + table monotonicity sweep |
| C12, C13, C15 | SynthModel + YM register-file spec | invariant over API histories; refuted parts separated |
| C14 | SynthModel | expected refuted (stale TL), partial after volume change |
| C16 | SynthModel + bus spec | invariant over trace |
| C17–C19, C21 | SramModel, CrcModel | bit-level codec lemma; CRC linearity; map refinement |
| C20 | CrcModel | equality with bit-serial polynomial spec by table sweep |
| C22 | AppModel (main.c order) | expected refuted |
| C23 | SramModel with bus | expected refuted for one ownership state, partial for other |
| C24–C27, C66, C67 | PsgModel | invariants over PSG operation histories |
| C28 | NotePriorityModel | refinement to list |
| C29 | MidiModel | expected refuted; partial for nested/legato patterns |
| C30–C40, C43, C44, C46–C48, C63 | MidiModel | invariants/step theorems over MIDI states |
| C31, C39, C62 at the chip | AppModel | per FM channel a view computed from the calls made (AppViewProofs), and an invariant relating it to the MIDI layer (AppKeyProofs, AppSoundProofs, AppToneProofs) |
| C30, C33, C36, C38, C42 at the chips | AppModel | the register writes of one message are those of its calls (ChipProofs), joined to the MIDI-level theorems |
| C41 | MidiModel glide | arithmetic + induction on frames |
| C42 | MidiModel | expected refuted (stale glide), partial without portamento |
| C49 | AppModel | simulation relation between the state after reset and the power-on state |
| C50, C51 | CommModel | invariant over poll schedules |
| C52 | SchedulerModel | invariant over interleavings; expected refuted in part |
| C53 | LogModel | refinement to bounded queue |
| C54 | IpUtilModel | decimal spec; expected refuted for 100–109, 200–209 |
| C55–C57 | RtpModel | codec induction; expected refuted for long/malformed packets |
| C58 | AppleModel, NetModel | case analysis over packets |
| C59, C60 | NetModel | invariant over event schedules |
| C61 | DemoModel | invariant over button histories |
| C64 | RxModel | expected refuted inside messages; proved between messages |
| C65 | SynthModel | per-call case analysis |
| C68, C69 | RxModel | running status refuted; startup sequences by the stream induction |
| C70 | CommModel | refuted in every state before discovery |
| C45, C73 | AppModel | the preset table follows the calls made (frame lemmas of DevProofs); wire bytes computed; C73 expected refuted for re-selection |
| C71, C72 | AppModel | views of the per-channel chip registers along histories; expected refuted for underflow and drums |
| C84, C85 | AppModel | the calls of a history to the PSG driver are read off as a driver history (SongProofs: `score`), to which C67 applies; an invariant ties the sounding voice to the MIDI layer (SongNoteProofs, SongPlayProofs, SongReleaseProofs) |
| C86–C89 | MachineModel | induction over interleavings of bytes, blanks and main loop steps: the run so far is a history of AppModel whose messages are those read (MachineProofs: `inv_at`), and whose frames are the blanks seen to; then C31, C71, C84, C85 apply (MachineNoteProofs, MachineSongProofs); frames while a message is incomplete expected refuted |
| C90–C93 | BusModel | induction over messages and register answers; frames by a parsing relation; the light refuted when presets are saved |
| C94, C95 | BusModel | refinement of the port's interrupt handler to a queue; start-up window between enabling the interrupt and setting the callback expected refuted |
| C96, C97 | BusModel | simulation of the bus accesses by SramModel on the cartridge's memory, then C17–C19; restoring the interrupts expected refuted |
| C98, C99, C102 | AppModel | each controller as the setters it calls; the registers mirror the state (C13), so the fields read back; raw writes by computation |
| C100, C101 | AppModel | the note's calls to its voice (note placement in fixed assignment), then the driver's writes; an invariant on option histories says when the sixth channel plays samples; All Notes Off, Reset All Controllers and releases expected refuted |
| C103–C105 | WifiModel | simulation of AppModel and NetModel by induction over the events, each poll bringing a whole packet that the reading loop then empties; answers from the calls a message makes; loss of a second answer and a freeze after a clock in a packet expected refuted |
| C106, C107 | NetStartModel | case analysis over the library's answers; induction over the schedule for a transport not in use; an ignored failure to join expected refuted; memcmp by induction |
| C108 | WifiModel | C103 composed with C31, C48, C71, C84 and C85 |
| C109 | HubModel | invariant by induction over bytes on all transports, polls and frames; the choice stated on the events alone; every transport being heard expected refuted |
| C110 | AppModel | the line as a small state machine on keys and cents; simulation by induction over the messages and frames after the first key, with the view of the FM channel; a key after the release of an older one and the last semitone downwards expected refuted |
| C111 | AppModel | held keys and voice groups as folds over the messages; invariant that the device channels that are on are a bijective image of the held keys, kept by every message; with the view of each FM channel; portamento expected refuted |
| C112 | CartModel | every driver function keeps an invariant and makes accesses within a set fixed by what start-up recognised, lifted to all histories; the cartridge's memory expected never used (refuted) |
| C113 | AppModel (MidiModel down to the chips) | one pass of pitch calls over the device channels at the chip's view of each FM channel; two expectations refuted by runs |
| C114 | HubModel down to the chips | the history performed (C109) joined to C31 and C71 |
| C115 | AppModel | invariant: the assignment is the fold of the requests (AssignSpec); a sole device channel is the one chosen, of several a silent one; chip views as in C71 |
| C116 | AppModel | the calls of a note address one device channel (case analysis of note on and note off); every chip write belongs to the voice its call addresses (as in C36) |
| C74–C83 | UiModel | each drawing function as a frame rule over screen regions; invariants relating the remembered copies to the cells; erasure to AppModel (C78); corner cases expected refuted |

"Expected" remarks come from reading the code; the final status is in
`MANIFEST.json`.

## 7. Axioms used

Every property theorem so far prints "Closed under the global context".
(`coqchk` additionally reports `Under_rel`-style axioms of the standard
library's `ssrunder` module, which is loaded by the standard library but not
used by any theorem here.)
