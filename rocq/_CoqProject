-Q theories Verif
theories/Model/GoBase.v
theories/Model/Env.v
theories/Model/BitBuffer.v
theories/Model/Crc32.v
theories/Model/MnemonicPkg.v
theories/Model/Version.v
theories/Model/Seed.v
theories/Model/Encoding.v
theories/Model/GoTime.v
theories/Model/Recovery.v
theories/Spec/EnvSpec.v
theories/Spec/PhraseSpec.v
theories/Proofs/BitsP.v
theories/Proofs/BitBufferP.v
theories/Proofs/WordsP.v
theories/Proofs/CrcP.v
theories/Spec/DecodeSpec.v
theories/Proofs/PhraseP.v
theories/Proofs/DecodeP.v
theories/Spec/CaseSpec.v
theories/Proofs/EnvInst.v
theories/Proofs/RoundtripP.v
theories/Props/PhraseProps.v
theories/Props/SeedProps.v
theories/Props/CodecProps.v
theories/Spec/CorruptSpec.v
theories/Proofs/CorruptP.v
theories/Props/CorruptProps.v
theories/Spec/BitsSpec.v
theories/Props/BitsProps.v
theories/Model/PgpWire.v
theories/Model/PgpS2k.v
theories/Model/PgpKeys.v
theories/Model/Mnemonikey.v
theories/Spec/KeySpec.v
theories/Proofs/KeysP.v
theories/Props/KeyProps.v
theories/Spec/PgpSpec.v
theories/Proofs/PgpP.v
theories/Proofs/S2kP.v
theories/Proofs/SignP.v
theories/Spec/ExportSpec.v
theories/Proofs/ExportP.v
theories/Props/PgpProps.v
theories/Props/ExportProps.v
theories/Props/LifeProps.v
theories/Model/CliText.v
theories/Model/CliInput.v
theories/Model/CliFlags.v
theories/Model/CliMain.v
theories/Spec/CliEnvSpec.v
theories/Spec/TextSpec.v
theories/Proofs/TextP.v
theories/Props/TextProps.v
theories/Spec/InputSpec.v
theories/Proofs/InputP.v
theories/Proofs/CliInst.v
theories/Proofs/EntryP.v
theories/Props/InputProps.v
theories/Spec/FileSpec.v
theories/Proofs/FileP.v
theories/Proofs/MainP.v
theories/Props/FileProps.v
theories/Spec/MainSpec.v
theories/Spec/EndSpec.v
theories/Proofs/CleanP.v
theories/Props/MainProps.v
theories/Props/EndProps.v
theories/Props/IdentityProps.v
theories/Model/CliScreen.v
theories/Spec/ScreenSpec.v
theories/Proofs/ScreenP.v
theories/Proofs/ShowP.v
theories/Props/ScreenProps.v
theories/Spec/ArmorSpec.v
theories/Proofs/ArmorP.v
theories/Proofs/BytesP.v
theories/Spec/OutputSpec.v
theories/Props/ArmorProps.v
theories/Spec/Sha.v
theories/Spec/Aes.v
theories/Spec/Curve25519.v
theories/Spec/Argon2.v
theories/Spec/RealEnv.v
theories/Proofs/RealP.v
theories/Proofs/Vectors.v
theories/Props/RealProps.v
theories/Spec/FlagSpec.v
theories/Spec/SpaceSpec.v
theories/Proofs/FlagP.v
theories/Proofs/SpaceP.v
theories/Props/FlagProps.v
theories/Model/CliHelp.v
theories/Spec/HelpSpec.v
theories/Props/HelpProps.v
theories/Proofs/PrimeP.v
theories/Proofs/FieldP.v
theories/Proofs/EdwardsP.v
theories/Spec/EdVerify.v
theories/Proofs/Ed25519P.v
theories/Proofs/EdSignP.v
theories/Props/ConvertProps.v
theories/Spec/GoFloat.v
theories/Proofs/FloatP.v
theories/Spec/GoRand.v
theories/Proofs/RandP.v
theories/Spec/GoArmor.v
theories/Spec/GoText.v
theories/Spec/SpellSpec.v
theories/Proofs/UnicodeP.v
theories/Props/RuntimeProps.v
theories/Model/CliTrace.v
theories/Model/CliTerm.v
theories/Model/CliFile.v
theories/Model/BigHeap.v
theories/Proofs/TraceP.v
theories/Spec/TraceSpec.v
theories/Spec/TermSpec.v
theories/Spec/DiskSpec.v
theories/Proofs/SpeakP.v
theories/Proofs/TalkP.v
theories/Proofs/StderrP.v
theories/Proofs/AskP.v
theories/Props/TraceProps.v
theories/Props/TraceCases.v
theories/Proofs/TermP.v
theories/Proofs/TermMainP.v
theories/Props/TermProps.v
theories/Proofs/DiskP.v
theories/Props/DiskProps.v
theories/Spec/CalendarSpec.v
theories/Spec/GoCalendar.v
theories/Spec/GoQuote.v
theories/Spec/QuoteSpec.v
theories/Proofs/CalendarP.v
theories/Proofs/QuoteP.v
theories/Props/ClockProps.v
theories/Props/QuoteProps.v
theories/Spec/LoopSpec.v
theories/Spec/ShareSpec.v
theories/Spec/ChainSpec.v
theories/Spec/ProgramSpec.v
theories/Proofs/SafeP.v
theories/Proofs/ShareP.v
theories/Props/SafeProps.v
theories/Props/ShareProps.v
theories/Props/ChainProps.v
theories/Props/ProgramProps.v
theories/Model/SliceHeap.v
theories/Spec/SliceSpec.v
theories/Proofs/SliceP.v
theories/Proofs/SliceRunP.v
theories/Props/SliceProps.v
theories/Model/ZeroValues.v
theories/Spec/PanicSpec.v
theories/Proofs/PanicP.v
theories/Props/PanicProps.v
theories/Model/SliceThreads.v
theories/Spec/ThreadSpec.v
theories/Proofs/TwinP.v
theories/Proofs/ThreadP.v
theories/Props/ThreadProps.v
theories/Model/PgpFields.v
theories/Spec/FieldSpec.v
theories/Proofs/PgpFieldsP.v
theories/Proofs/UnreadP.v
theories/Proofs/MadeKeysP.v
theories/Props/FieldProps.v
theories/Model/Variables.v
theories/Props/VariableProps.v
theories/Proofs/HeldP.v
theories/Props/AssignedProps.v
theories/Spec/TypingSpec.v
theories/Proofs/TypingP.v
theories/Props/TypingProps.v
theories/Model/BigThreads.v
theories/Spec/BigThreadSpec.v
theories/Proofs/BigTwinP.v
theories/Proofs/BigThreadP.v
theories/Props/BigThreadProps.v
theories/Spec/EntropySpec.v
theories/Props/EntropyProps.v
theories/Spec/SameKeySpec.v
theories/Props/SameKeyProps.v
theories/Model/SubHeap.v
theories/Spec/SubSpec.v
theories/Proofs/SubHeapP.v
theories/Props/SubProps.v
theories/Spec/TwiceSpec.v
theories/Props/TwiceProps.v
theories/Model/Scanner.v
theories/Spec/ScanSpec.v
theories/Proofs/ScanP.v
theories/Props/ScanProps.v
theories/Model/CliAhead.v
theories/Props/AheadProps.v
