-Q theories Verif
theories/Bytes.v
theories/BytesLemmas.v
theories/GoErr.v
theories/GoIO.v
theories/Pb.v
theories/Crypto.v
theories/Keys.v
theories/Sign.v
theories/CryptoLaws.v
theories/Encrypt.v
theories/Decrypt.v
theories/Stream.v
theories/SpecIO.v
theories/SpecPb.v
theories/Spec.v
theories/IOProofs.v
theories/PbProofs.v
theories/PbGrammar.v
theories/EncryptProofs.v
theories/DecryptProofs.v
theories/AcceptProofs.v
theories/OpenProofs.v
theories/RoundTrip.v
theories/SpecStream.v
theories/StreamProofs.v
theories/StreamRead.v
theories/Hostile.v
theories/Toy.v
theories/Scene.v
theories/Support.v
theories/Thm_Encrypt.v
theories/Thm_Session.v
theories/Thm_Limits.v
theories/Thm_Decrypt.v
theories/Thm_Stream.v
theories/Thm_Pb.v
theories/SpecSign.v
theories/KeysProofs.v
theories/Prime25519.v
theories/Thm_Sign.v
theories/Base64.v
theories/SpecBase64.v
theories/Base64Proofs.v
theories/GoText.v
theories/Ssh.v
theories/KeyFiles.v
theories/ExtLaws.v
theories/SpecSsh.v
theories/TextProofs.v
theories/SpecTrim.v
theories/TrimProofs.v
theories/SshProofs.v
theories/SshKeyProofs.v
theories/Thm_Ssh.v
theories/ToyExt.v
theories/Thm_KeyFiles.v
theories/Fs.v
theories/SpecFs.v
theories/FsProofs.v
theories/Store.v
theories/Cli.v
theories/FreeProofs.v
theories/SpecCli.v
theories/CliProofs.v
theories/CliScene.v
theories/Thm_Files.v
theories/Thm_Cli.v
theories/Thm_Commands.v
theories/Thm_Chain.v
theories/Main.v
theories/Thm_Main.v
theories/SpecCrash.v
theories/CrashProofs.v
theories/Thm_KeyCrash.v
theories/Thm_Crash.v
theories/Thm_Size.v
theories/Thm_History.v
theories/Thm_Pipe.v
theories/Thm_EndToEnd.v
theories/Thm_Accept.v
theories/Thm_Touch.v
theories/Thm_StreamFormat.v
theories/Thm_Consume.v
theories/SpecCalls.v
theories/Thm_Calls.v
theories/Flags.v
theories/SpecFlags.v
theories/SpecSecret.v
theories/FlagsProofs.v
theories/Thm_Flags.v
theories/Thm_Words.v
theories/Thm_Fail.v
theories/Thm_Modes.v
theories/Thm_Origin.v
theories/Thm_Parallel.v
theories/Thm_Signed.v
theories/Thm_Texts.v
theories/Thm_Secret.v
theories/Thm_Sender.v
theories/Thm_SenderStream.v
theories/Thm_Turn.v
theories/Thm_TurnStream.v
theories/Thm_NoPanic.v
theories/Thm_Amplify.v
theories/Thm_Follow.v
theories/Thm_Forms.v
theories/Thm_KeySecret.v
theories/Thm_Dest.v
theories/SpecWorld.v
theories/LocalProofs.v
theories/Thm_Together.v
theories/Thm_SignOut.v
theories/Thm_Exit.v
theories/Debug.v
theories/SpecDebug.v
theories/Thm_Debug.v
theories/Race.v
theories/Thm_Race.v
theories/Thm_Midway.v
theories/Told.v
theories/Thm_Told.v
theories/Thm_Reads.v
theories/Thm_Rewrite.v
theories/Thm_Zero.v
theories/Usage.v
theories/Thm_Usage.v
theories/Thm_Loops.v
theories/Paths.v
theories/Thm_Paths.v
theories/Thm_Endian.v
theories/PbBuf.v
theories/Thm_PbBuf.v
theories/Thm_Done.v
theories/Mem.v
theories/Thm_Mem.v
theories/Thm_Past.v
theories/Thm_Order.v
theories/Thm_Advice.v
