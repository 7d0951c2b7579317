(** Theorems on the protobuf codec of the file header: C25, C26.
    The wire format is specified in SpecPb.v. *)
From Verif Require Import Bytes BytesLemmas GoErr Pb SpecPb PbProofs PbGrammar.
Require Import ZifyBool.
Local Notation length := List.length.

(** ** C25: for every header with a 32-bit chunk size, arbitrary byte fields, any number of wrapped keys and any
    well-formed unknown fields (whose encoding has fewer than 2^62 bytes): the computed size is the size of the
    protobuf encoding, marshalling into a buffer of that size gives exactly that encoding (it never overruns or
    under-fills the buffer), and unmarshalling the result gives the header back. *)
Theorem C25_header_codec_round_trip :
  forall h, pb_small h -> pb_wellformed h ->
  exists b, marshal_to h (size_header h) = Ok b /\ b = pb_header h /\ len b = size_header h /\ unmarshal_header b = Ok h.
Proof.
  intros h Hs Hk. exists (pb_header h). split; [apply marshal_spec; exact Hs|]. split; [reflexivity|].
  split; [symmetry; apply size_header_spec; exact Hs|]. apply unmarshal_header_iff; [exact (proj2 Hs)|].
  apply pb_header_decodes; assumption.
Qed.
Print Assumptions C25_header_codec_round_trip.

(** a header with a 300-byte salt, an empty pk, two keys and an unknown field 6 holding a group *)
Definition pb_example : header :=
  mkHeader (2^32 - 1) (repeat x41 300) [] [x01] [mkWkey [x02; x03] [] []; mkWkey [] [] []] [x33; x08; x07; x34].
Example C25_instance : pb_small pb_example /\ pb_wellformed pb_example /\ len (pb_header pb_example) = 324.
Proof.
  assert (H : len (pb_header pb_example) = 324) by (vm_compute; reflexivity).
  split; [split; [cbn; lia|rewrite H; lia]|]. split; [|exact H].
  assert (V : forall x, b2z x < 128 -> is_varint [x]) by (intros; apply is_varint_one; assumption).
  split; [|repeat constructor].
  change (h_unk pb_example) with ([x33] ++ ([x08] ++ [x07] ++ []) ++ [x34] ++ []). rewrite (app_assoc _ [x34]).
  apply u_field; [split; [apply V; reflexivity|split; [reflexivity|discriminate]]|reflexivity| |constructor].
  apply p_group; [|apply V; reflexivity|reflexivity].
  apply g_field; [apply V; reflexivity| |constructor]. apply p_varint. apply V. reflexivity.
Qed.

(** ** C26: for every byte string (of fewer than 2^62 bytes, i.e. every Go slice) the decoder returns a header or an
    error, never an index out of range; it accepts exactly the byte strings of the wire grammar, in which unknown
    fields are kept byte for byte, in order; and the header never holds more bytes than the input. *)
Theorem C26_decoder_total_and_exact :
  forall d, len d < 2^62 ->
  ((exists h, unmarshal_header d = Ok h) \/ (exists e, unmarshal_header d = Fail e)) /\
  (forall h, unmarshal_header d = Ok h <-> decodes empty_header d h) /\
  (forall h, unmarshal_header d = Ok h -> header_bytes h <= len d /\ 0 <= h_chunk h < 2^32 /\ pb_wellformed h).
Proof.
  intros d Hd. pose proof (unmarshal_safe d Hd) as Hs. split; [|split].
  - destruct (unmarshal_header d) as [h|e|]; [eauto|eauto|contradiction].
  - intros h. apply unmarshal_header_iff. exact Hd.
  - intros h H. rewrite H in Hs. destruct Hs as (H1 & H2). split; [exact H1|]. split; [exact H2|].
    apply unmarshal_header_iff in H; [|exact Hd]. eapply decodes_wellformed; [exact H|]. split; constructor.
Qed.
Print Assumptions C26_decoder_total_and_exact.

(** decoding is a projection: re-encoding a decoded header and decoding again changes nothing *)
Corollary C26_reencode :
  forall d h, len d < 2^62 -> unmarshal_header d = Ok h -> len (pb_header h) < 2^62 ->
  unmarshal_header (pb_header h) = Ok h.
Proof.
  intros d h Hd H Hl. destruct (C26_decoder_total_and_exact d Hd) as (_ & _ & H3). destruct (H3 h H) as (_ & Hc & Hw).
  destruct (C25_header_codec_round_trip h (conj Hc Hl) Hw) as (b & _ & -> & _ & Hu). exact Hu.
Qed.
Print Assumptions C26_reencode.

(** a non-canonical encoding: two chunk sizes (the last one wins), the second as an over-long varint, an unknown
    field 6 before the salt *)
Example C26_instance :
  unmarshal_header [x08; x01; x30; x96; x01; x08; x85; x80; x00; x12; x01; x41]
  = Ok (mkHeader 5 [x41] [] [] [] [x30; x96; x01])
  /\ (exists e, unmarshal_header [x08; x01; x12; x05; x41] = Fail e).
Proof. split; [vm_compute; reflexivity|eexists; vm_compute; reflexivity]. Qed.
