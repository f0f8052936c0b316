-Q theories Verif
theories/Base.v
theories/BaseLemmas.v
theories/RingBufModel.v
theories/RingBufSpec.v
theories/RingBufProofs.v
theories/RingBufProperties.v
theories/RingSpscModel.v
theories/RingSpscSpec.v
theories/RingSpscProofs.v
theories/RingSpscProperties.v
theories/PitchModel.v
theories/PitchSpec.v
theories/PitchProofs.v
theories/PitchProperties.v
theories/NotePriorityModel.v
theories/NotePrioritySpec.v
theories/NotePriorityProofs.v
theories/NotePriorityProperties.v
theories/IpUtilModel.v
theories/IpUtilSpec.v
theories/IpUtilProofs.v
theories/IpUtilProperties.v
theories/LogModel.v
theories/LogSpec.v
theories/LogProofs.v
theories/LogProperties.v
theories/CrcModel.v
theories/CrcSpec.v
theories/CrcProofs.v
theories/CrcProperties.v
theories/SchedulerModel.v
theories/SchedulerSpec.v
theories/SchedulerProofs.v
theories/SchedulerProperties.v
theories/SynthModel.v
theories/SynthSpec.v
theories/SynthProofs.v
theories/SynthMirrorProofs.v
theories/SynthClaimsProofs.v
theories/SynthNotifyProofs.v
theories/SynthProperties.v
theories/SramModel.v
theories/SramSpec.v
theories/SramProofs.v
theories/SramProperties.v
theories/PsgModel.v
theories/PsgSpec.v
theories/PsgProofs.v
theories/PsgRunProofs.v
theories/PsgClaimsProofs.v
theories/PsgPlayProofs.v
theories/PsgEnvProofs.v
theories/PsgProperties.v
theories/MidiModel.v
theories/MidiSpec.v
theories/MidiProofs.v
theories/MidiOkProofs.v
theories/MidiEqProofs.v
theories/MidiEffectProofs.v
theories/MidiNoteProofs.v
theories/MidiHistProofs.v
theories/MidiMapProofs.v
theories/MidiStaticProofs.v
theories/MidiChanProofs.v
theories/MidiCarryProofs.v
theories/MidiTableProofs.v
theories/MidiSysexProofs.v
theories/MidiGlideProofs.v
theories/MidiMonoProofs.v
theories/MidiClaimsProofs.v
theories/MidiProperties.v
theories/RxModel.v
theories/RxSpec.v
theories/RxProofs.v
theories/SerialModel.v
theories/SerialSpec.v
theories/SerialProofs.v
theories/RxProperties.v
theories/CommModel.v
theories/CommSpec.v
theories/CommProofs.v
theories/CommProperties.v
theories/DemoModel.v
theories/DemoSpec.v
theories/DemoProofs.v
theories/DemoProperties.v
theories/RomData.v
theories/DevModel.v
theories/AppModel.v
theories/DevSpec.v
theories/DevProofs.v
theories/MidiCallProofs.v
theories/AppSpec.v
theories/AppProofs.v
theories/AppTraceProofs.v
theories/AppClaimsProofs.v
theories/AppExampleProofs.v
theories/AppProperties.v
theories/MidiDevProofs.v
theories/MidiInvProofs.v
theories/SynthViewProofs.v
theories/AppViewProofs.v
theories/AppKeyProofs.v
theories/SoundSpec.v
theories/MidiTuneProofs.v
theories/MidiPlaceProofs.v
theories/AppSoundProofs.v
theories/AppToneProofs.v
theories/AppNoteProofs.v
theories/SoundExampleProofs.v
theories/NoteExampleProofs.v
theories/SoundProperties.v
theories/NoteProperties.v
theories/LibrarySpec.v
theories/LibraryProofs.v
theories/LibraryExampleProofs.v
theories/LibraryProperties.v
theories/ChipProofs.v
theories/ChipExampleProofs.v
theories/ChipProperties.v
theories/PsgAlikeProofs.v
theories/TwinProofs.v
theories/ResetProofs.v
theories/ResetExampleProofs.v
theories/ResetProperties.v
theories/RtpModel.v
theories/RtpSpec.v
theories/RtpProofs.v
theories/RtpExampleProofs.v
theories/RtpProperties.v
theories/AppleModel.v
theories/NetModel.v
theories/NetSpec.v
theories/AppleSpec.v
theories/NetProofs.v
theories/AppleProofs.v
theories/NetReplyProofs.v
theories/NetExampleProofs.v
theories/NetProperties.v
theories/UiModel.v
theories/UiSpec.v
theories/UiProofs.v
theories/UiPanelProofs.v
theories/UiRunProofs.v
theories/UiNotifyProofs.v
theories/UiSysProofs.v
theories/UiClaimsProofs.v
theories/UiExampleProofs.v
theories/UiProperties.v
theories/SongSpec.v
theories/SongProofs.v
theories/SongNoteProofs.v
theories/SongPlayProofs.v
theories/SongReleaseProofs.v
theories/SongStopProofs.v
theories/SongExampleProofs.v
theories/SongProperties.v
theories/MachineModel.v
theories/MachineSpec.v
theories/MachineProofs.v
theories/MachineRunProofs.v
theories/MachineWireProofs.v
theories/MachineNoteProofs.v
theories/MachineSongProofs.v
theories/MachineExampleProofs.v
theories/MachineProperties.v
theories/BusModel.v
theories/BusSpec.v
theories/BusProofs.v
theories/BusSerialProofs.v
theories/BusStoreProofs.v
theories/BusExampleProofs.v
theories/BusProperties.v
theories/EditSpec.v
theories/EditProofs.v
theories/VoiceProofs.v
theories/LevelProofs.v
theories/EditExampleProofs.v
theories/EditProperties.v
theories/WifiModel.v
theories/WifiSpec.v
theories/ReplyProofs.v
theories/WifiNetProofs.v
theories/WifiProofs.v
theories/WifiExampleProofs.v
theories/WifiProperties.v
theories/NetStartModel.v
theories/NetStartSpec.v
theories/NetStartProofs.v
theories/NetStartProperties.v
theories/AirSpec.v
theories/AirProofs.v
theories/AirExampleProofs.v
theories/AirProperties.v
theories/HubModel.v
theories/HubSpec.v
theories/HubProofs.v
theories/HubExampleProofs.v
theories/HubProperties.v
theories/GlideSpec.v
theories/GlideProofs.v
theories/GlideRunProofs.v
theories/GlideExampleProofs.v
theories/GlideProperties.v
theories/ChordSpec.v
theories/ChordProofs.v
theories/ChordRunProofs.v
theories/ChordDrumProofs.v
theories/ChordExampleProofs.v
theories/ChordProperties.v
theories/CartModel.v
theories/CartSpec.v
theories/CartProofs.v
theories/CartRunProofs.v
theories/CartExampleProofs.v
theories/CartProperties.v
theories/TuneSpec.v
theories/TuneProofs.v
theories/TuneExampleProofs.v
theories/TuneProperties.v
theories/HubNoteSpec.v
theories/HubNoteProofs.v
theories/HubNoteExampleProofs.v
theories/HubNoteProperties.v
theories/AssignSpec.v
theories/AssignProofs.v
theories/AssignNoteProofs.v
theories/AssignOffProofs.v
theories/AssignChordProofs.v
theories/AssignExampleProofs.v
theories/AssignProperties.v
theories/TouchSpec.v
theories/TouchProofs.v
theories/TouchExampleProofs.v
theories/TouchProperties.v
