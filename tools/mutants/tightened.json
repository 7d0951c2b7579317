{
 "p029@1": {
  "tightened": [
   "C67_private_exact (new)"
  ],
  "note": "only the crash/key-file theorems failed, none of C39: there was no exact characterisation of accepted private key files. C67_private_exact added."
 },
 "p030@1": {
  "tightened": [
   "C67_private_exact (new)"
  ],
  "note": "as p029"
 },
 "p057@1": {
  "tightened": [
   "C42_write_outcome (new)"
  ],
  "note": "C42 said what a successful write leaves, not that a failing step is reported. C42_write_outcome added."
 },
 "p061@1": {
  "tightened": [
   "C42_write_outcome (new)",
   "C68_only_outputs (new)"
  ],
  "note": "failed only because of the shape of the proof; both new theorems say that no temporary file stays."
 },
 "p067@1": {
  "claim": [
   "C43"
  ],
  "note": "the marshal error cannot occur under crypto_ok, so C42 is not affected"
 },
 "p069@1": {
  "claim": [
   "C43"
  ],
  "note": "verify takes no passphrase, so C47 is not affected"
 },
 "n002@1": {
  "tightened": [
   "C06_stream_chunks (new)"
  ],
  "note": "C06 was proved for Encrypt only although its English covers the stream writer; Thm_StreamFormat.v added (C04, C05, C06, C07 for streams)."
 },
 "n003@1": {
  "tightened": [
   "C07_stream_nonces_distinct_partial (new)",
   "C05_stream_format (new)"
  ],
  "note": "C07 was proved for Encrypt only; see n002"
 },
 "n008@1": {
  "tightened": [
   "C06_stream_chunks (new)",
   "C05_stream_format (new)"
  ],
  "note": "see n002"
 },
 "n029@1": {
  "note": "caught by the exact characterisations C67_*"
 },
 "n031@1": {
  "tightened": [
   "C30_generated_keys (new)"
  ],
  "note": "no theorem tied a generated key pair to the seed read; C30_generated_keys added."
 },
 "r007@2": {
  "note": "equivalent mutant: no claim is broken"
 },
 "r008@2": {
  "note": "equivalent mutant: no claim is broken"
 },
 "r009@2": {
  "note": "equivalent mutant: no claim is broken"
 },
 "r012@2": {
  "tightened": [
   "C71_command (new)"
  ],
  "note": "C71 spoke of the library call only; C71_command added, and it fails with this edit."
 },
 "r025@2": {
  "tightened": [
   "C90_one_destination (new)"
  ],
  "note": "failed only through the shape of a lemma; C90 now says that nothing is copied to standard output."
 },
 "n064@2": {
  "tightened": [
   "C40_decode_exact",
   "C40_round_trip"
  ],
  "note": "the specification used the model's alphabet; SpecBase64 now has its own RFC 4648 table."
 },
 "t029@4": {
  "tightened": [
   "C95_set_key_midway_partial (new)"
  ],
  "note": "no theorem followed Read across a SetPrivateKey call; C95 added, and it fails with this edit (round 5, u001)."
 },
 "u003@5": {
  "note": "equivalent mutant: no message has %% in its format"
 },
 "x005@8": {
  "tightened": [
   "C100_usage_is_true"
  ],
  "note": "the usage text's claim was not checked word for word; it is now."
 },
 "v084@6": {
  "tightened": [
   "C75_who_may (octal digits)"
  ],
  "note": "no theorem fixed the meaning of octal file modes; C75_who_may reads them bit by bit."
 },
 "w0_018@7": {
  "tightened": [
   "C75_who_may (octal digits)"
  ],
  "note": "as v084."
 },
 "v024@6": {
  "tightened": [
   "C22_write_loop (new)",
   "C21_read_loop (new)"
  ],
  "note": "single Write/Read calls of the scripted reader and writer were not tied to the loops; they are now."
 },
 "w0_066@7": {
  "tightened": [
   "C22_write_loop (new)"
  ],
  "note": "as v024"
 },
 "v231@6": {
  "tightened": [
   "C21_read_loop (new)"
  ],
  "note": "as v024 (run on a base from before this theorem)"
 },
 "v265@6": {
  "tightened": [
   "C22_write_loop (new)"
  ],
  "note": "as v024 (run on a base from before this theorem)"
 },
 "v158@6": {
  "tightened": [
   "C75_library (new)"
  ],
  "note": "permissions were stated for the commands only."
 },
 "w0_029@7": {
  "tightened": [
   "C75_library (new)"
  ],
  "note": "as v158"
 },
 "v190@6": {
  "tightened": [
   "C41_conversions_agree"
  ],
  "note": "the base point was named, not described; the theorem now says 32 bytes, value 9."
 },
 "v032@6": {
  "note": "equivalent mutant: the changed case cannot occur"
 },
 "v153@6": {
  "note": "equivalent mutant: the changed case cannot occur"
 },
 "w0_054@7": {
  "note": "equivalent mutant: the changed case cannot occur"
 },
 "w0_068@7": {
  "note": "equivalent mutant: identity composed with Ok"
 },
 "w0_004@7": {
  "note": "equivalent mutant: same value modulo the prime"
 },
 "w0_010@7": {
  "note": "equivalent mutant: the changed case cannot occur"
 },
 "w0_093@7": {
  "note": "equivalent mutant: unbe32 is only used on 4 bytes"
 },
 "w0_143@7": {
  "note": "equivalent mutant: no message lacks an argument (C96_texts)"
 },
 "z001@10": {
  "note": "equivalent mutant: put32 is only used on slices that are long enough"
 },
 "q018@11": {
  "note": "equivalent mutant: wrapf is only used on new_gcm with 32-byte keys, which cannot fail"
 },
 "q019@11": {
  "note": "wrapo is not used by the model"
 },
 "q043@11": {
  "claim": [
   "C100"
  ],
  "tightened": [
   "C100_version"
  ],
  "note": "survived at first: nothing said what the version text is; C100_version added, which fails for this edit"
 },
 "x001@13": {
  "claim": [
   "C96"
  ],
  "tightened": [
   "C96_missing_arguments"
  ],
  "note": "no theorem said what is told when arguments are missing; C96_missing_arguments was added for this round"
 },
 "x002@13": {
  "claim": [
   "C96"
  ],
  "tightened": [
   "C96_missing_arguments"
  ],
  "note": "no theorem said what is told when arguments are missing; C96_missing_arguments was added for this round"
 },
 "x003@13": {
  "claim": [
   "C96"
  ],
  "tightened": [
   "C96_missing_arguments"
  ],
  "note": "no theorem said what is told when arguments are missing; C96_missing_arguments was added for this round"
 },
 "x007@13": {
  "claim": [
   "C96"
  ],
  "tightened": [
   "C96_missing_arguments"
  ],
  "note": "no theorem said what is told when arguments are missing; C96_missing_arguments was added for this round"
 }
}