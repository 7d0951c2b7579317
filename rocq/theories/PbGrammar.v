(** The decoder of Pb.v accepts exactly the wire grammar of SpecPb.v. *)
From Verif Require Import Bytes BytesLemmas GoErr Pb SpecPb PbProofs.
Require Import ZifyBool.
Ltac Zify.zify_post_hook ::= Z.div_mod_to_equations.
Local Notation length := List.length.
Local Notation concat := List.concat.

(** view of an index as a suffix *)
Definition at_suffix (d : bytes) (i : Z) (s : bytes) : Prop := 0 <= i /\ i + len s = len d /\ drop i d = s.

Lemma suffix_intro pre s : at_suffix (pre ++ s) (len pre) s.
Proof. pose proof (len_nonneg pre). repeat split; [lia|rewrite len_app; lia|apply drop_app_exact]. Qed.
Lemma suffix_app d i a s : at_suffix d i (a ++ s) -> at_suffix d (i + len a) s.
Proof.
  intros (H0 & H1 & H2). rewrite len_app in H1. pose proof (len_nonneg a). repeat split; [lia|lia|].
  rewrite (Z.add_comm i), <- drop_drop by lia. rewrite H2. apply drop_app_exact.
Qed.
Lemma suffix_of d i : 0 <= i <= len d -> at_suffix d i (drop i d).
Proof. intros H. repeat split; [lia|]. rewrite len_drop by lia. lia. Qed.
Lemma suffix_split d i j s : at_suffix d i s -> i <= j <= len d -> exists a r, s = a ++ r /\ len a = j - i /\ at_suffix d j r.
Proof.
  intros (H0 & H1 & H2) H. exists (take (j - i) s), (drop (j - i) s).
  assert (E : s = take (j - i) s ++ drop (j - i) s) by (symmetry; apply take_drop).
  split; [exact E|]. assert (L : len (take (j - i) s) = j - i) by (apply len_take_le; lia). split; [exact L|].
  rewrite E in H2, H1. replace j with (i + len (take (j - i) s)) at 1 by lia.
  apply suffix_app. repeat split; [lia|lia|exact H2].
Qed.
Lemma suffix_at d i x s : at_suffix d i (x :: s) -> at_ d i = Ok x.
Proof. intros (H0 & H1 & H2). unfold at_. destruct (Z.ltb_spec i 0); [lia|]. rewrite H2. reflexivity. Qed.
Lemma suffix_slice d i a s : at_suffix d i (a ++ s) -> slice d i (i + len a) = Ok a.
Proof.
  intros (H0 & H1 & H2). rewrite len_app in H1. pose proof (len_nonneg a). pose proof (len_nonneg s).
  unfold slice. replace ((0 <=? i) && (i <=? i + len a) && (i + len a <=? len d)) with true by lia.
  rewrite H2. replace (i + len a - i) with (len a) by lia. rewrite take_app_eq by reflexivity. reflexivity.
Qed.

Lemma digits_nonneg b : 0 <= digits b.
Proof. induction b as [|x b IH]; cbn [digits]; [lia|]. pose proof (b2z_range x). lia. Qed.

Lemma is_varint_cons x b : 128 <= b2z x -> is_varint b -> len b <= 9 -> is_varint (x :: b).
Proof.
  intros Hx (ini & last & -> & Hi & Hl & _) H9. exists (x :: ini), last. repeat split; [constructor; assumption|exact Hl|].
  rewrite len_cons. lia.
Qed.
Lemma is_varint_one x : b2z x < 128 -> is_varint [x].
Proof. intros H. exists [], x. repeat split; [constructor|exact H|cbn; lia]. Qed.
Lemma is_varint_inv b : is_varint b -> (exists x, b = [x] /\ b2z x < 128) \/ (exists x b', b = x :: b' /\ 128 <= b2z x /\ is_varint b' /\ len b' <= 9).
Proof.
  intros (ini & last & -> & Hi & Hl & Hn). destruct ini as [|x ini].
  - left. exists last. split; [reflexivity|exact Hl].
  - right. exists x, (ini ++ [last]). inversion Hi; subst. cbn [app] in Hn. rewrite len_cons in Hn.
    repeat split; [assumption| |lia]. exists ini, last. repeat split; [assumption|exact Hl|lia].
Qed.
Lemma is_varint_pos b : is_varint b -> 0 < len b <= 10.
Proof. intros (ini & last & -> & Hi & Hl & Hn). split; [|exact Hn]. rewrite len_app. pose proof (len_nonneg ini). cbn. lia. Qed.

(** one step of the accumulator *)
Lemma acc_step bits A g shift : 0 <= bits -> 0 <= shift -> 0 <= A < 2 ^ shift ->
  Z.lor (A mod 2 ^ bits) (Z.shiftl g shift mod 2 ^ bits) = (A + g * 2 ^ shift) mod 2 ^ bits.
Proof.
  intros Hb Hs HA. rewrite Z.shiftl_mul_pow2 by exact Hs. rewrite <- !Z.land_ones by exact Hb.
  rewrite <- Z.land_lor_distr_l. rewrite lor_high by assumption. reflexivity.
Qed.

Lemma get_varint_complete bits d : 0 <= bits -> forall b fuel idx k A r,
  is_varint b -> at_suffix d idx (b ++ r) -> 0 <= k -> k + len b <= 10 -> len b <= Z.of_nat fuel -> 0 <= A < 2 ^ (7 * k) ->
  get_varint fuel bits d (len d) idx (7 * k) (A mod 2 ^ bits) = Ok ((A + digits b * 2 ^ (7 * k)) mod 2 ^ bits, idx + len b).
Proof.
  intros Hb b. induction b as [|x b IH]; intros fuel idx k A r Hv Hs Hk Hl Hf HA.
  { apply is_varint_pos in Hv. cbn in Hv. lia. }
  rewrite len_cons in *. pose proof (len_nonneg b). destruct fuel as [|fuel]; [lia|].
  cbn [get_varint]. destruct (Z.leb_spec 64 (7 * k)) as [H'|H']; [lia|].
  assert (Hi : idx < len d). { destruct Hs as (_ & Hs & _). cbn [app] in Hs. rewrite len_cons in Hs. pose proof (len_nonneg (b ++ r)). lia. }
  destruct (Z.leb_spec (len d) idx) as [H1|H1]; [lia|].
  cbn [app] in Hs. rewrite (suffix_at _ _ _ _ Hs). cbn [bind]. rewrite land_127, acc_step by lia.
  pose proof (b2z_range x) as Hx.
  destruct (is_varint_inv _ Hv) as [(y & E & Hy)|(y & b' & E & Hy & Hv' & Hb')].
  - injection E as -> ->. destruct (Z.ltb_spec (b2z y) 128) as [H2|H2]; [|lia]. cbn [digits]. change (len (@nil byte)) with 0.
    do 2 f_equal. f_equal. f_equal. f_equal. lia.
  - injection E as <- <-. destruct (Z.ltb_spec (b2z x) 128) as [H2|H2]; [lia|].
    replace (7 * k + 7) with (7 * (k + 1)) by lia.
    rewrite (IH fuel (idx + 1) (k + 1) _ r).
    + cbn [digits]. rewrite Z.mul_add_distr_l, Z.pow_add_r by lia. change (2 ^ (7 * 1)) with 128.
      f_equal. f_equal; [f_equal; ring|lia].
    + exact Hv'.
    + change 1 with (len [x]). apply suffix_app. exact Hs.
    + lia.
    + lia.
    + lia.
    + split; [pose proof (Z.pow_pos_nonneg 2 (7*k)); nia|].
      rewrite Z.mul_add_distr_l, Z.pow_add_r by lia. change (2 ^ (7 * 1)) with 128.
      assert (b2z x mod 128 <= 127) by lia. pose proof (Z.pow_pos_nonneg 2 (7*k)). nia.
Qed.

Lemma get_varint_sound bits d : 0 <= bits -> forall fuel idx k A s v i,
  at_suffix d idx s -> 0 <= k <= 10 -> 0 <= A < 2 ^ (7 * k) ->
  get_varint fuel bits d (len d) idx (7 * k) (A mod 2 ^ bits) = Ok (v, i) ->
  exists b r, s = b ++ r /\ is_varint b /\ k + len b <= 10 /\ i = idx + len b /\ v = (A + digits b * 2 ^ (7 * k)) mod 2 ^ bits.
Proof.
  intros Hb. induction fuel as [|fuel IH]; intros idx k A s v i Hs Hk HA H; cbn [get_varint] in H; [discriminate H|].
  destruct (Z.leb_spec 64 (7 * k)) as [H'|H']; [discriminate H|].
  destruct (Z.leb_spec (len d) idx) as [H1|H1]; [discriminate H|].
  destruct s as [|x s]. { destruct Hs as (_ & Hs & _). cbn in Hs. lia. }
  rewrite (suffix_at _ _ _ _ Hs) in H. cbn [bind] in H. rewrite land_127, acc_step in H by lia.
  pose proof (b2z_range x) as Hx.
  destruct (Z.ltb_spec (b2z x) 128) as [H2|H2].
  - injection H as <- <-. exists [x], s. repeat split; [apply is_varint_one; lia| cbn; lia|].
    cbn [digits]. f_equal. f_equal. f_equal. lia.
  - replace (7 * k + 7) with (7 * (k + 1)) in H by lia.
    assert (HA' : 0 <= A + b2z x mod 128 * 2 ^ (7 * k) < 2 ^ (7 * (k + 1))).
    { split; [pose proof (Z.pow_pos_nonneg 2 (7*k)); nia|].
      rewrite Z.mul_add_distr_l, Z.pow_add_r by lia. change (2 ^ (7 * 1)) with 128.
      assert (b2z x mod 128 <= 127) by lia. pose proof (Z.pow_pos_nonneg 2 (7*k)). nia. }
    assert (Hs' : at_suffix d (idx + 1) s). { change 1 with (len [x]). apply suffix_app. exact Hs. }
    assert (Hk' : 0 <= k + 1 <= 10) by lia. destruct (IH _ _ _ _ _ _ Hs' Hk' HA' H) as (b & r & -> & Hv & Hl & -> & ->).
    exists (x :: b), r. split; [reflexivity|]. split; [apply is_varint_cons; [lia|exact Hv|lia]|]. rewrite len_cons.
    split; [lia|]. split; [lia|]. cbn [digits]. rewrite Z.mul_add_distr_l, Z.pow_add_r by lia. change (2 ^ (7 * 1)) with 128.
    f_equal. ring.
Qed.

Lemma varint_at_complete bits d idx b r : 0 <= bits -> is_varint b -> at_suffix d idx (b ++ r) ->
  varint_at bits d idx = Ok (digits b mod 2 ^ bits, idx + len b).
Proof.
  intros Hb Hv Hs. pose proof (is_varint_pos _ Hv). unfold varint_at.
  replace (get_varint 11 bits d (len d) idx 0 0) with (get_varint 11 bits d (len d) idx (7 * 0) (0 mod 2 ^ bits)).
  2:{ rewrite Z.mod_0_l by (apply Z.pow_nonzero; lia). reflexivity. }
  rewrite (get_varint_complete bits d Hb b 11 idx 0 0 r Hv Hs) by (change (2 ^ (7 * 0)) with 1; lia).
  f_equal. f_equal. f_equal. change (2 ^ (7 * 0)) with 1. lia.
Qed.
Lemma varint_at_sound bits d idx s v i : 0 <= bits -> at_suffix d idx s -> varint_at bits d idx = Ok (v, i) ->
  exists b r, s = b ++ r /\ is_varint b /\ i = idx + len b /\ at_suffix d i r /\ v = digits b mod 2 ^ bits.
Proof.
  intros Hb Hs H. unfold varint_at in H.
  replace (get_varint 11 bits d (len d) idx 0 0) with (get_varint 11 bits d (len d) idx (7 * 0) (0 mod 2 ^ bits)) in H.
  2:{ rewrite Z.mod_0_l by (apply Z.pow_nonzero; lia). reflexivity. }
  assert (H0 : 0 <= 0 <= 10) by lia. assert (H1 : 0 <= 0 < 2 ^ (7 * 0)) by (change (2 ^ (7 * 0)) with 1; lia).
  destruct (get_varint_sound bits d Hb _ _ _ _ _ _ _ Hs H0 H1 H) as (b & r & -> & Hv & Hl & -> & ->).
  exists b, r. split; [reflexivity|]. split; [exact Hv|]. split; [reflexivity|]. split; [apply suffix_app; exact Hs|].
  f_equal. change (2 ^ (7 * 0)) with 1. lia.
Qed.

Lemma skip_varint_complete d : forall b fuel idx k r,
  is_varint b -> at_suffix d idx (b ++ r) -> 0 <= k -> k + len b <= 10 -> len b <= Z.of_nat fuel ->
  skip_varint fuel d (len d) idx (7 * k) = Ok (idx + len b).
Proof.
  intros b. induction b as [|x b IH]; intros fuel idx k r Hv Hs Hk Hl Hf.
  { apply is_varint_pos in Hv. cbn in Hv. lia. }
  rewrite len_cons in *. pose proof (len_nonneg b). destruct fuel as [|fuel]; [lia|].
  cbn [skip_varint]. destruct (Z.leb_spec 64 (7 * k)) as [H'|H']; [lia|].
  assert (Hi : idx < len d). { destruct Hs as (_ & Hs & _). cbn [app] in Hs. rewrite len_cons in Hs. pose proof (len_nonneg (b ++ r)). lia. }
  destruct (Z.leb_spec (len d) idx) as [H1|H1]; [lia|].
  cbn [app] in Hs. rewrite (suffix_at _ _ _ _ Hs). cbn [bind].
  destruct (is_varint_inv _ Hv) as [(y & E & Hy)|(y & b' & E & Hy & Hv' & Hb')].
  - injection E as -> ->. destruct (Z.ltb_spec (b2z y) 128) as [H2|H2]; [|lia]. reflexivity.
  - injection E as <- <-. destruct (Z.ltb_spec (b2z x) 128) as [H2|H2]; [lia|].
    replace (7 * k + 7) with (7 * (k + 1)) by lia.
    rewrite (IH fuel (idx + 1) (k + 1) r); [f_equal; lia|exact Hv'| |lia|lia|lia].
    change 1 with (len [x]). apply suffix_app. exact Hs.
Qed.
Lemma skip_varint_sound d : forall fuel idx k s i,
  at_suffix d idx s -> 0 <= k <= 10 -> skip_varint fuel d (len d) idx (7 * k) = Ok i ->
  exists b r, s = b ++ r /\ is_varint b /\ k + len b <= 10 /\ i = idx + len b.
Proof.
  induction fuel as [|fuel IH]; intros idx k s i Hs Hk H; cbn [skip_varint] in H; [discriminate H|].
  destruct (Z.leb_spec 64 (7 * k)) as [H'|H']; [discriminate H|].
  destruct (Z.leb_spec (len d) idx) as [H1|H1]; [discriminate H|].
  destruct s as [|x s]. { destruct Hs as (_ & Hs & _). cbn in Hs. lia. }
  rewrite (suffix_at _ _ _ _ Hs) in H. cbn [bind] in H.
  destruct (Z.ltb_spec (b2z x) 128) as [H2|H2].
  - injection H as <-. exists [x], s. repeat split; [apply is_varint_one; lia| cbn; lia].
  - replace (7 * k + 7) with (7 * (k + 1)) in H by lia.
    assert (Hs' : at_suffix d (idx + 1) s). { change 1 with (len [x]). apply suffix_app. exact Hs. }
    assert (Hk' : 0 <= k + 1 <= 10) by lia.
    destruct (IH _ _ _ _ Hs' Hk' H) as (b & r & -> & Hv & Hl & ->).
    exists (x :: b), r. split; [reflexivity|]. split; [apply is_varint_cons; [lia|exact Hv|lia]|]. rewrite len_cons. lia.
Qed.

(** ** length-delimited values *)
Lemma vval_range b : 0 <= vval b < 2 ^ 64.
Proof. unfold vval. apply Z.mod_pos_bound. lia. Qed.

Lemma get_bytes_complete d idx n b r : len d < 2 ^ 62 -> delimited n b -> at_suffix d idx (n ++ b ++ r) ->
  get_bytes d idx = Ok (b, idx + len n + len b).
Proof.
  intros Hd (Hn & He) Hs. unfold get_bytes. rewrite (varint_at_complete 64 _ _ _ _ ltac:(lia) Hn Hs). cbn [bind].
  change (digits n mod 2 ^ 64) with (vval n). rewrite He. pose proof (suffix_app _ _ _ _ Hs) as Hs1.
  pose proof Hs1 as (H0 & H1 & _). rewrite len_app in H1. pose proof (len_nonneg b). pose proof (len_nonneg r).
  rewrite (i64_small (len b)) by lia. destruct (Z.ltb_spec (len b) 0); [lia|].
  rewrite i64_small by lia. destruct (Z.ltb_spec (idx + len n + len b) 0); [lia|].
  destruct (Z.ltb_spec (len d) (idx + len n + len b)); [lia|].
  rewrite (suffix_slice _ _ _ _ Hs1). reflexivity.
Qed.
Lemma get_bytes_sound d idx s b i : len d < 2 ^ 62 -> at_suffix d idx s -> get_bytes d idx = Ok (b, i) ->
  exists n r, s = n ++ b ++ r /\ delimited n b /\ i = idx + len n + len b /\ at_suffix d i r.
Proof.
  intros Hd Hs H. unfold get_bytes in H.
  destruct (varint_at 64 d idx) as [[v i1]| |] eqn:Ev; cbn [bind] in H; [|discriminate H|discriminate H].
  destruct (varint_at_sound 64 d idx s v i1 ltac:(lia) Hs Ev) as (n & s1 & -> & Hn & -> & Hs1 & ->).
  change (digits n mod 2 ^ 64) with (vval n) in H. pose proof (vval_range n) as Hv.
  destruct (Z.ltb_spec (i64 (vval n)) 0) as [H1|H1]; [discriminate H|].
  destruct (i64_val (vval n) ltac:(lia)) as [E|[E E']]; [|lia]. rewrite E in *.
  destruct (Z.ltb_spec (i64 (idx + len n + vval n)) 0) as [H2|H2]; [discriminate H|].
  pose proof Hs1 as (G0 & G1 & _). pose proof (len_nonneg s1). pose proof (i64_range (vval n)).
  destruct (i64_val (idx + len n + vval n) ltac:(lia)) as [E2|[E2 E2']]; [|lia]. rewrite E2 in *.
  destruct (Z.ltb_spec (len d) (idx + len n + vval n)) as [K3|K3]; [discriminate H|].
  destruct (suffix_split _ _ (idx + len n + vval n) _ Hs1 ltac:(lia)) as (a & r & -> & La & Hr).
  replace (idx + len n + vval n) with (idx + len n + len a) in H by lia.
  rewrite (suffix_slice _ _ _ _ Hs1) in H. cbn [bind] in H. injection H as <- <-.
  exists n, r. split; [reflexivity|]. split; [split; [exact Hn|lia]|]. split; [reflexivity|].
  replace (idx + len n + len a) with (idx + len n + vval n) by lia. exact Hr.
Qed.

(** ** skipping unknown fields *)
(** [n] open groups still to be closed *)
Inductive closes : Z -> bytes -> Prop :=
  | c_nil : closes 0 []
  | c_cons n fs e r : 0 <= n -> group fs -> is_varint e -> tag_wire e = 4 -> closes n r -> closes (n + 1) (fs ++ e ++ r).
Lemma closes_inv n b : closes n b -> 0 < n -> exists fs e r, b = fs ++ e ++ r /\ group fs /\ is_varint e /\ tag_wire e = 4 /\ closes (n - 1) r.
Proof.
  intros H Hn. inversion H as [|n' fs e r Hn' Hg He Ht Hc]; subst; [lia|].
  exists fs, e, r. repeat split; try assumption. replace (n' + 1 - 1) with n' by lia. exact Hc.
Qed.
Lemma closes_field n t p b : 0 < n -> is_varint t -> payload (tag_wire t) p -> closes n b -> closes n (t ++ p ++ b).
Proof.
  intros Hn Ht Hp Hc. destruct (closes_inv _ _ Hc Hn) as (fs & e & r & -> & Hg & He & Hw & Hr).
  replace (t ++ p ++ fs ++ e ++ r) with ((t ++ p ++ fs) ++ e ++ r) by (rewrite <- !app_assoc; reflexivity).
  replace n with (n - 1 + 1) by lia. constructor; [lia| |assumption..]. constructor; assumption.
Qed.

Lemma land7 w : Z.land w 7 = w mod 8.
Proof. change 7 with (Z.ones 3). rewrite Z.land_ones by lia. reflexivity. Qed.

(** the body of the loop in protohelpers.Skip, after the tag *)
Definition skip_value (d : bytes) (wt i1 depth : Z) : res (Z * Z) :=
  if wt =? 0 then i <- skip_varint 11 d (len d) i1 0 ;; Ok (i, depth)
  else if wt =? 1 then Ok (i64 (i1 + 8), depth)
  else if wt =? 2 then
    '(v, i) <- varint_at 64 d i1 ;;
    let length := i64 v in
    if length <? 0 then Fail (EMsg "proto: negative length found during unmarshaling")
    else Ok (i64 (i + length), depth)
  else if wt =? 3 then Ok (i1, depth + 1)
  else if wt =? 4 then
    if depth =? 0 then Fail (EMsg "proto: unexpected end of group") else Ok (i1, depth - 1)
  else if wt =? 5 then Ok (i64 (i1 + 4), depth)
  else Fail (EMsg "proto: illegal wireType").

Lemma skip_value_sound d wt i1 depth s i2 depth2 : len d < 2 ^ 62 -> at_suffix d i1 s ->
  skip_value d wt i1 depth = Ok (i2, depth2) -> 0 <= i2 <= len d ->
  (wt = 3 /\ i2 = i1 /\ depth2 = depth + 1) \/ (wt = 4 /\ depth <> 0 /\ i2 = i1 /\ depth2 = depth - 1)
  \/ (wt <> 4 /\ depth2 = depth /\ exists p r, s = p ++ r /\ payload wt p /\ i2 = i1 + len p /\ at_suffix d i2 r).
Proof.
  intros Hd Hs H Hi. unfold skip_value in H. pose proof Hs as (G0 & G1 & _). pose proof (len_nonneg s) as G2.
  destruct (Z.eqb_spec wt 0) as [->|W0].
  { destruct (skip_varint 11 d (len d) i1 0) as [i| |] eqn:E; cbn [bind] in H; [|discriminate H|discriminate H].
    injection H as <- <-. assert (K0 : 0 <= 0 <= 10) by lia. change (skip_varint 11 d (len d) i1 (7 * 0) = Ok i) in E.
    destruct (skip_varint_sound _ _ _ _ _ _ Hs K0 E) as (b & r & -> & Hb & _ & ->).
    right. right. split; [lia|]. split; [reflexivity|]. exists b, r. split; [reflexivity|]. split; [constructor; exact Hb|].
    split; [reflexivity|]. apply suffix_app. exact Hs. }
  destruct (Z.eqb_spec wt 1) as [->|W1].
  { injection H as <- <-. destruct (i64_val (i1 + 8) ltac:(lia)) as [E|[E E']]; [|lia]. rewrite E in *.
    destruct (suffix_split _ _ (i1 + 8) _ Hs ltac:(lia)) as (a & r & -> & La & Hr).
    right. right. split; [lia|]. split; [reflexivity|]. exists a, r. split; [reflexivity|]. split; [constructor; lia|].
    split; [lia|]. exact Hr. }
  destruct (Z.eqb_spec wt 2) as [->|W2].
  { destruct (varint_at 64 d i1) as [[v i]| |] eqn:Ev; cbn [bind] in H; [|discriminate H|discriminate H].
    destruct (varint_at_sound 64 d i1 s v i ltac:(lia) Hs Ev) as (n & s1 & -> & Hn & -> & Hs1 & ->).
    change (digits n mod 2 ^ 64) with (vval n) in H. pose proof (vval_range n) as Hv.
    destruct (Z.ltb_spec (i64 (vval n)) 0) as [H1|H1]; [discriminate H|].
    destruct (i64_val (vval n) ltac:(lia)) as [E|[E E']]; [|lia]. rewrite E in *. injection H as <- <-.
    pose proof Hs1 as (G3 & G4 & _). pose proof (len_nonneg s1) as G5. pose proof (i64_range (vval n)) as G6.
    destruct (i64_val (i1 + len n + vval n) ltac:(lia)) as [E2|[E2 E2']]; [|lia]. rewrite E2 in *.
    destruct (suffix_split _ _ (i1 + len n + vval n) _ Hs1 ltac:(lia)) as (a & r & -> & La & Hr).
    right. right. split; [lia|]. split; [reflexivity|]. exists (n ++ a), r. split; [apply app_assoc|].
    split; [constructor; split; [exact Hn|lia]|]. rewrite len_app. split; [lia|exact Hr]. }
  destruct (Z.eqb_spec wt 3) as [->|W3].
  { injection H as <- <-. left. auto. }
  destruct (Z.eqb_spec wt 4) as [->|W4].
  { destruct (Z.eqb_spec depth 0) as [E|E]; [discriminate H|]. injection H as <- <-. right. left. auto. }
  destruct (Z.eqb_spec wt 5) as [->|W5]; [|discriminate H].
  injection H as <- <-. destruct (i64_val (i1 + 4) ltac:(lia)) as [E|[E E']]; [|lia]. rewrite E in *.
  destruct (suffix_split _ _ (i1 + 4) _ Hs ltac:(lia)) as (a & r & -> & La & Hr).
  right. right. split; [lia|]. split; [reflexivity|]. exists a, r. split; [reflexivity|]. split; [constructor; lia|].
  split; [lia|]. exact Hr.
Qed.

Lemma skip_loop_unfold f d idx depth : skip_loop (S f) d idx depth =
  if len d <=? idx then Fail ErrUnexpectedEOF else
  '(wire, i1) <- varint_at 64 d idx ;;
  '(i2, depth2) <- skip_value d (Z.land wire 7) i1 depth ;;
  if i2 <? 0 then Fail (EMsg "proto: negative length found during unmarshaling")
  else if depth2 =? 0 then Ok i2 else skip_loop f d i2 depth2.
Proof. reflexivity. Qed.

Lemma skip_loop_end f d i depth j : skip_loop f d i depth = Ok j -> i < len d.
Proof. destruct f; cbn [skip_loop]; destruct (Z.leb_spec (len d) i); intros H'; try discriminate H'; lia. Qed.

Lemma skip_loop_sound d : len d < 2 ^ 62 -> forall f idx n s i, 0 <= n -> at_suffix d idx s -> i <= len d ->
  skip_loop f d idx n = Ok i ->
  exists b r, s = b ++ r /\ i = idx + len b /\ at_suffix d i r /\
    (n = 0 -> exists t p, b = t ++ p /\ is_varint t /\ tag_wire t <> 4 /\ payload (tag_wire t) p) /\ (0 < n -> closes n b).
Proof.
  intros Hd. induction f as [|f IH]; intros idx n s i Hn Hs Hi H.
  { pose proof (skip_loop_end _ _ _ _ _ H). cbn [skip_loop] in H. destruct (Z.leb_spec (len d) idx); [lia|discriminate H]. }
  rewrite skip_loop_unfold in H. destruct (Z.leb_spec (len d) idx) as [L|L]; [discriminate H|].
  destruct (varint_at 64 d idx) as [[w i1]| |] eqn:Ev; cbn [bind] in H; [|discriminate H|discriminate H].
  destruct (varint_at_sound 64 d idx s w i1 ltac:(lia) Hs Ev) as (t & s1 & -> & Ht & -> & Hs1 & ->).
  rewrite land7 in H. change ((digits t mod 2 ^ 64) mod 8) with (tag_wire t) in H.
  destruct (skip_value d (tag_wire t) (idx + len t) n) as [[i2 n2]| |] eqn:Esv; cbn [bind] in H; [|discriminate H|discriminate H].
  destruct (Z.ltb_spec i2 0) as [L2|L2]; [discriminate H|].
  assert (Hi2 : 0 <= i2 <= len d).
  { split; [lia|]. destruct (n2 =? 0); [injection H as ->; lia|]. pose proof (skip_loop_end _ _ _ _ _ H). lia. }
  destruct (skip_value_sound _ _ _ _ _ _ _ Hd Hs1 Esv Hi2) as [(W & -> & ->)|[(W & Hn0 & -> & ->)|(W & -> & p & r & -> & Hp & -> & Hr)]].
  - (* group start *)
    destruct (Z.eqb_spec (n + 1) 0) as [E|E]; [lia|].
    destruct (IH _ (n + 1) _ _ ltac:(lia) Hs1 Hi H) as (b & r & -> & -> & Hr & _ & Hc).
    destruct (closes_inv _ _ (Hc ltac:(lia)) ltac:(lia)) as (fs & e & q & -> & Hg & He & Hw & Hq).
    replace (n + 1 - 1) with n in Hq by lia.
    exists (t ++ fs ++ e ++ q), r. split; [rewrite <- !app_assoc; reflexivity|].
    split; [rewrite !len_app; lia|]. split; [exact Hr|]. split.
    + intros ->. exists t, (fs ++ e). inversion Hq; subst; [|lia]. rewrite app_nil_r. split; [reflexivity|]. split; [exact Ht|].
      split; [lia|]. rewrite W. constructor; assumption.
    + intros Hpos. replace (t ++ fs ++ e ++ q) with (t ++ (fs ++ e) ++ q) by (rewrite <- !app_assoc; reflexivity).
      apply closes_field; [lia|exact Ht| |exact Hq]. rewrite W. constructor; assumption.
  - (* group end *)
    destruct (Z.eqb_spec (n - 1) 0) as [E|E].
    + injection H as <-. exists t, s1. split; [reflexivity|]. split; [reflexivity|]. split; [exact Hs1|]. split; [lia|].
      intros _. replace n with (0 + 1) by lia. replace t with ([] ++ t ++ []) by (cbn; apply app_nil_r).
      constructor; [lia|constructor|exact Ht|exact W|constructor].
    + destruct (IH _ (n - 1) _ _ ltac:(lia) Hs1 Hi H) as (b & r & -> & -> & Hr & _ & Hc).
      exists (t ++ b), r. split; [rewrite <- !app_assoc; reflexivity|]. split; [rewrite !len_app; lia|]. split; [exact Hr|].
      split; [lia|]. intros _. replace n with (n - 1 + 1) by lia. change (t ++ b) with ([] ++ t ++ b).
      constructor; [lia|constructor|exact Ht|exact W|apply Hc; lia].
  - destruct (Z.eqb_spec n 0) as [E|E].
    + injection H as <-. exists (t ++ p), r. split; [apply app_assoc|]. rewrite len_app. split; [lia|].
      split; [exact Hr|]. split; [|lia]. intros _. exists t, p. auto.
    + destruct (IH _ n _ _ ltac:(lia) Hr Hi H) as (b & q & -> & -> & Hq & _ & Hc).
      exists (t ++ p ++ b), q. split; [rewrite <- !app_assoc; reflexivity|]. split; [rewrite !len_app; lia|]. split; [exact Hq|].
      split; [lia|]. intros Hpos. apply closes_field; [lia|exact Ht|exact Hp|apply Hc; lia].
Qed.

(** completeness; enough fuel = number of bytes left *)
Scheme payload_mind := Induction for payload Sort Prop
  with group_mind := Induction for group Sort Prop.
Combined Scheme payload_group_ind from payload_mind, group_mind.

Lemma payload_scalar_value d wt p i1 depth r : len d < 2 ^ 62 -> payload wt p -> wt <> 3 -> at_suffix d i1 (p ++ r) ->
  skip_value d wt i1 depth = Ok (i1 + len p, depth).
Proof.
  intros Hd Hp Hw Hs. pose proof Hs as (G0 & G1 & _). rewrite len_app in G1. pose proof (len_nonneg p). pose proof (len_nonneg r).
  unfold skip_value. inversion Hp as [b Hb|b Hb|n b (Hn & He)|fs e Hg He Ht|b Hb]; subst; cbn [Z.eqb Pos.eqb].
  - pose proof (is_varint_pos _ Hb). change (skip_varint 11 d (len d) i1 0) with (skip_varint 11 d (len d) i1 (7 * 0)).
    rewrite (skip_varint_complete d p 11 i1 0 r Hb Hs) by lia. reflexivity.
  - rewrite Hb, i64_small by lia. reflexivity.
  - rewrite <- app_assoc in Hs. rewrite (varint_at_complete 64 _ _ _ _ ltac:(lia) Hn Hs). cbn [bind].
    change (digits n mod 2 ^ 64) with (vval n). rewrite He. rewrite len_app in *. pose proof (len_nonneg b). pose proof (len_nonneg n).
    rewrite (i64_small (len b)) by lia. destruct (Z.ltb_spec (len b) 0); [lia|]. rewrite i64_small by lia. do 2 f_equal. lia.
  - lia.
  - rewrite Hb, i64_small by lia. reflexivity.
Qed.

(** reading one tag *)
Lemma skip_tag f d idx n t s : len d < 2 ^ 62 -> is_varint t -> at_suffix d idx (t ++ s) ->
  skip_loop (S f) d idx n = '(i2, n2) <- skip_value d (tag_wire t) (idx + len t) n ;;
    if i2 <? 0 then Fail (EMsg "proto: negative length found during unmarshaling")
    else if n2 =? 0 then Ok i2 else skip_loop f d i2 n2.
Proof.
  intros Hd Ht Hs. pose proof Hs as (G0 & G1 & _). rewrite len_app in G1. pose proof (is_varint_pos _ Ht). pose proof (len_nonneg s).
  rewrite skip_loop_unfold. destruct (Z.leb_spec (len d) idx) as [L|L]; [lia|].
  rewrite (varint_at_complete 64 _ _ _ _ ltac:(lia) Ht Hs). cbn [bind]. rewrite land7. reflexivity.
Qed.

(** what skipping a payload (resp. a group's contents) at nesting depth n amounts to: the loop continues after it,
    with some smaller but still sufficient fuel *)
Lemma skip_complete d : len d < 2 ^ 62 ->
  (forall wt p, payload wt p -> forall t idx r n f, is_varint t -> tag_wire t = wt -> at_suffix d idx (t ++ p ++ r) -> 0 <= n ->
     len d - idx <= Z.of_nat f ->
     exists f', len d - (idx + len t + len p) <= Z.of_nat f' /\
       skip_loop f d idx n = if n =? 0 then Ok (idx + len t + len p) else skip_loop f' d (idx + len t + len p) n) /\
  (forall g, group g -> forall idx r n f, at_suffix d idx (g ++ r) -> 0 < n -> len d - idx <= Z.of_nat f ->
     exists f', len d - (idx + len g) <= Z.of_nat f' /\ skip_loop f d idx n = skip_loop f' d (idx + len g) n).
Proof.
  intros Hd.
  assert (Scalar : forall wt p, payload wt p -> wt <> 3 -> forall t idx r n f, is_varint t -> tag_wire t = wt ->
     at_suffix d idx (t ++ p ++ r) -> 0 <= n -> len d - idx <= Z.of_nat f ->
     exists f', len d - (idx + len t + len p) <= Z.of_nat f' /\
       skip_loop f d idx n = if n =? 0 then Ok (idx + len t + len p) else skip_loop f' d (idx + len t + len p) n).
  { intros wt p Hp Hw t idx r n f Ht Hwt Hs Hn Hf. pose proof Hs as (G0 & G1 & _). rewrite !len_app in G1.
    pose proof (is_varint_pos _ Ht). pose proof (len_nonneg p). pose proof (len_nonneg r).
    destruct f as [|f]; [lia|]. exists f. split; [lia|].
    rewrite (skip_tag _ _ _ _ _ _ Hd Ht Hs), Hwt. rewrite (payload_scalar_value _ _ _ _ _ _ Hd Hp Hw (suffix_app _ _ _ _ Hs)).
    cbn [bind]. destruct (Z.ltb_spec (idx + len t + len p) 0); [lia|]. reflexivity. }
  apply payload_group_ind.
  - intros. eapply Scalar; eauto; [constructor; assumption|lia].
  - intros. eapply Scalar; eauto; [constructor; assumption|lia].
  - intros. eapply Scalar; eauto; [constructor; assumption|lia].
  - intros fs e Hg IH He Hwe t idx r n f Ht Hwt Hs Hn Hf. pose proof Hs as (G0 & G1 & _). rewrite !len_app in G1.
    pose proof (is_varint_pos _ Ht). pose proof (is_varint_pos _ He). pose proof (len_nonneg fs). pose proof (len_nonneg r).
    destruct f as [|f]; [lia|]. pose proof (suffix_app _ _ _ _ Hs) as Hs1. rewrite <- app_assoc in Hs1.
    destruct (IH (idx + len t) (e ++ r) (n + 1) f Hs1 ltac:(lia) ltac:(lia)) as (f1 & Hf1 & E1).
    destruct f1 as [|f1]; [lia|]. exists f1. rewrite len_app. split; [lia|].
    rewrite (skip_tag _ _ _ _ _ _ Hd Ht Hs), Hwt. cbn [skip_value Z.eqb Pos.eqb]. unfold skip_value. cbn [Z.eqb Pos.eqb bind].
    destruct (Z.ltb_spec (idx + len t) 0); [lia|]. destruct (Z.eqb_spec (n + 1) 0); [lia|]. rewrite E1.
    rewrite (skip_tag _ _ _ _ _ _ Hd He (suffix_app _ _ _ _ Hs1)), Hwe. unfold skip_value. cbn [Z.eqb Pos.eqb].
    destruct (Z.eqb_spec (n + 1) 0); [lia|]. cbn [bind]. replace (n + 1 - 1) with n by lia.
    destruct (Z.ltb_spec (idx + len t + len fs + len e) 0); [lia|]. destruct (n =? 0); [f_equal; lia|f_equal; lia].
  - intros. eapply Scalar; eauto; [constructor; assumption|lia].
  - intros idx r n f Hs Hn Hf. exists f. change (len (@nil byte)) with 0. rewrite Z.add_0_r. auto.
  - intros t p q Ht Hp IHp Hg IHg idx r n f Hs Hn Hf. rewrite <- !app_assoc in Hs.
    destruct (IHp t idx (q ++ r) n f Ht eq_refl Hs ltac:(lia) Hf) as (f1 & Hf1 & E1).
    destruct (Z.eqb_spec n 0); [lia|].
    pose proof (suffix_app _ _ _ _ (suffix_app _ _ _ _ Hs)) as Hs2.
    destruct (IHg (idx + len t + len p) r n f1 Hs2 Hn Hf1) as (f2 & Hf2 & E2).
    exists f2. rewrite !len_app. split; [lia|]. rewrite E1, E2. f_equal. lia.
Qed.

Lemma suffix_whole s : at_suffix s 0 s.
Proof. split; [lia|]. split; [lia|]. apply drop_0. Qed.
Lemma app_len_inj (a a' b b' : bytes) : a ++ b = a' ++ b' -> len a = len a' -> a = a'.
Proof. intros E H. rewrite <- (take_app_eq (len a) a b eq_refl), E. apply take_app_eq. exact H. Qed.
Lemma suffix_rest d i s : at_suffix d i s -> slice d i (len d) = Ok s.
Proof.
  intros (H0 & H1 & H2). unfold slice. pose proof (len_nonneg s). replace ((0 <=? i) && (i <=? len d) && (len d <=? len d)) with true by lia.
  rewrite H2. rewrite take_all by lia. reflexivity.
Qed.

Lemma get_unknown_sound d pre s b i : len d < 2 ^ 62 -> at_suffix d pre s -> get_unknown d pre = Ok (b, i) ->
  exists t p r, s = t ++ p ++ r /\ b = t ++ p /\ is_varint t /\ payload (tag_wire t) p /\ i = pre + len t + len p /\ at_suffix d i r.
Proof.
  intros Hd Hs H. unfold get_unknown in H. rewrite (suffix_rest _ _ _ Hs) in H. cbn [bind] in H.
  destruct (skip s) as [j| |] eqn:Es; cbn [bind] in H; [|discriminate H|discriminate H].
  destruct ((j <? 0) || (i64 (pre + j) <? 0)) eqn:E1; [discriminate H|].
  destruct (Z.ltb_spec (len d) (pre + j)) as [L|L]; [discriminate H|].
  pose proof Hs as (G0 & G1 & _).
  unfold skip in Es. destruct (skip_loop_sound s ltac:(lia) _ 0 0 _ j (Z.le_refl 0) (suffix_whole s) ltac:(lia) Es)
    as (c & r & -> & -> & Hr & Hc & _).
  destruct (Hc eq_refl) as (t & p & -> & Ht & _ & Hp). cbn [Z.add] in *.
  rewrite (suffix_slice _ _ _ _ Hs) in H. cbn [bind] in H. injection H as <- <-.
  exists t, p, r. split; [symmetry; apply app_assoc|]. split; [reflexivity|]. split; [exact Ht|]. split; [exact Hp|].
  split; [rewrite len_app; lia|]. apply suffix_app. exact Hs.
Qed.
Lemma get_unknown_complete d pre t p r : len d < 2 ^ 62 -> is_varint t -> payload (tag_wire t) p -> at_suffix d pre (t ++ p ++ r) ->
  get_unknown d pre = Ok (t ++ p, pre + len t + len p).
Proof.
  intros Hd Ht Hp Hs. unfold get_unknown. rewrite (suffix_rest _ _ _ Hs). cbn [bind].
  pose proof Hs as (G0 & G1 & _). rewrite !len_app in G1. pose proof (len_nonneg t). pose proof (len_nonneg p). pose proof (len_nonneg r).
  set (s := t ++ p ++ r) in *. assert (Ls : len s = len t + (len p + len r)) by (unfold s; rewrite !len_app; lia).
  destruct (proj1 (skip_complete s ltac:(lia)) _ _ Hp t 0 r 0 (length s) Ht eq_refl (suffix_whole s) (Z.le_refl 0) ltac:(unfold len; lia))
    as (f' & _ & E).
  unfold skip. rewrite E. cbn [Z.eqb bind]. cbn [Z.add].
  rewrite i64_small by lia. destruct (Z.ltb_spec (len t + len p) 0); [lia|]. destruct (Z.ltb_spec (pre + (len t + len p)) 0); [lia|]. cbn [orb].
  destruct (Z.ltb_spec (len d) (pre + (len t + len p))); [lia|].
  unfold s in Hs. rewrite app_assoc in Hs. rewrite <- len_app. rewrite (suffix_slice _ _ _ _ Hs). cbn [bind]. rewrite len_app.
  do 2 f_equal. lia.
Qed.

Lemma get_tag_sound d idx s num w i : at_suffix d idx s -> get_tag d idx = Ok (num, w, i) ->
  exists t r, s = t ++ r /\ field_tag t /\ num = tag_num t /\ w = tag_wire t /\ i = idx + len t /\ at_suffix d i r.
Proof.
  intros Hs H. unfold get_tag in H.
  destruct (varint_at 64 d idx) as [[v i1]| |] eqn:Ev; cbn [bind] in H; [|discriminate H|discriminate H].
  destruct (varint_at_sound 64 d idx s v i1 ltac:(lia) Hs Ev) as (t & s1 & -> & Ht & -> & Hs1 & ->).
  rewrite land7, Z.shiftr_div_pow2 in H by lia. change (2 ^ 3) with 8 in H.
  change ((digits t mod 2 ^ 64) mod 8) with (tag_wire t) in H. change (i32 ((digits t mod 2 ^ 64) / 8)) with (tag_num t) in H.
  destruct (Z.eqb_spec (tag_wire t) 4) as [E|E]; [discriminate H|].
  destruct (Z.leb_spec (tag_num t) 0) as [L|L]; [discriminate H|]. injection H as <- <- <-.
  exists t, s1. split; [reflexivity|]. split; [split; [exact Ht|split; [lia|exact E]]|]. auto.
Qed.
Lemma get_tag_complete d idx t r : field_tag t -> at_suffix d idx (t ++ r) -> get_tag d idx = Ok (tag_num t, tag_wire t, idx + len t).
Proof.
  intros (Ht & Hn & Hw) Hs. unfold get_tag. rewrite (varint_at_complete 64 _ _ _ _ ltac:(lia) Ht Hs). cbn [bind].
  rewrite land7, Z.shiftr_div_pow2 by lia. change (2 ^ 3) with 8.
  change ((digits t mod 2 ^ 64) mod 8) with (tag_wire t). change (i32 ((digits t mod 2 ^ 64) / 8)) with (tag_num t).
  destruct (Z.eqb_spec (tag_wire t) 4) as [E|E]; [lia|]. destruct (Z.leb_spec (tag_num t) 0) as [L|L]; [lia|]. reflexivity.
Qed.

(** ** WrappedKey *)
Lemma wkey_loop_sound d : len d < 2 ^ 62 -> forall f idx m s k, at_suffix d idx s ->
  unmarshal_wkey_loop f d idx m = Ok k -> decodes_wkey m s k.
Proof.
  intros Hd. induction f as [|f IH]; intros idx m s k Hs H; cbn [unmarshal_wkey_loop] in H; pose proof Hs as (G0 & G1 & _);
    pose proof (len_nonneg s) as G2.
  { destruct (Z.leb_spec (len d) idx) as [L|L]; [|discriminate H]. destruct (Z.ltb_spec (len d) idx); [discriminate H|].
    injection H as <-. destruct s as [|x s]; [constructor|rewrite len_cons in *; pose proof (len_nonneg s); lia]. }
  destruct (Z.leb_spec (len d) idx) as [L|L].
  { destruct (Z.ltb_spec (len d) idx); [discriminate H|].
    injection H as <-. destruct s as [|x s]; [constructor|rewrite len_cons in *; pose proof (len_nonneg s); lia]. }
  destruct (get_tag d idx) as [[[num w] i1]| |] eqn:Et; cbn [bind] in H; [|discriminate H|discriminate H].
  destruct (get_tag_sound _ _ _ _ _ _ Hs Et) as (t & s1 & -> & Ht & -> & -> & -> & Hs1).
  destruct (Z.eqb_spec (tag_num t) 1) as [E1|E1].
  { destruct (Z.eqb_spec (tag_wire t) 2) as [W|W]; cbn [negb] in H; [|discriminate H].
    destruct (get_bytes d (idx + len t)) as [[b i2]| |] eqn:Eb; cbn [bind] in H; [|discriminate H|discriminate H].
    destruct (get_bytes_sound _ _ _ _ _ Hd Hs1 Eb) as (n & r & -> & Hn & -> & Hr).
    eapply dw_dkey; eauto. }
  destruct (Z.eqb_spec (tag_num t) 2) as [E2|E2].
  { destruct (Z.eqb_spec (tag_wire t) 2) as [W|W]; cbn [negb] in H; [|discriminate H].
    destruct (get_bytes d (idx + len t)) as [[b i2]| |] eqn:Eb; cbn [bind] in H; [|discriminate H|discriminate H].
    destruct (get_bytes_sound _ _ _ _ _ Hd Hs1 Eb) as (n & r & -> & Hn & -> & Hr).
    eapply dw_nonce; eauto. }
  destruct (get_unknown d idx) as [[b i2]| |] eqn:Eb; cbn [bind] in H; [|discriminate H|discriminate H].
  destruct (get_unknown_sound _ _ _ _ _ Hd Hs Eb) as (t' & p & r & E & -> & Ht' & Hp & -> & Hr).
  assert (t' = t) as ->.
  { destruct Ht as (Ht & _). pose proof (varint_at_complete 64 _ _ _ _ ltac:(lia) Ht Hs) as A.
    rewrite E in Hs. pose proof (varint_at_complete 64 _ _ _ _ ltac:(lia) Ht' Hs) as B. rewrite A in B. injection B as _ B.
    assert (len t = len t') by lia. symmetry. eapply app_len_inj; eauto. }
  apply app_inv_head in E as ->. eapply dw_other; eauto. destruct Ht as (_ & Ht & _). lia.
Qed.

Lemma field_room d idx t s f : field_tag t -> at_suffix d idx (t ++ s) -> len d - idx <= Z.of_nat f ->
  idx < len d /\ exists f', f = S f' /\ len d - (idx + len t) <= Z.of_nat f'.
Proof.
  intros (Ht & _) (G0 & G1 & _) Hf. pose proof (is_varint_pos _ Ht). rewrite len_app in G1. pose proof (len_nonneg s).
  split; [lia|]. destruct f as [|f]; [lia|]. exists f. split; [reflexivity|lia].
Qed.

Lemma wkey_loop_complete d : len d < 2 ^ 62 -> forall m s k, decodes_wkey m s k -> forall f idx, at_suffix d idx s ->
  len d - idx <= Z.of_nat f -> unmarshal_wkey_loop f d idx m = Ok k.
Proof.
  intros Hd m s k H. induction H as [m|m t n b r m' Ht N W Hn _ IH|m t n b r m' Ht N W Hn _ IH|m t p r m' Ht N Hp _ IH]; intros f idx Hs Hf.
  - destruct Hs as (G0 & G1 & _). change (len (@nil byte)) with 0 in G1. replace idx with (len d) by lia. apply wkey_done.
  - destruct (field_room _ _ _ _ _ Ht Hs Hf) as (L & f' & -> & Hf'). cbn [unmarshal_wkey_loop].
    destruct (Z.leb_spec (len d) idx); [lia|]. rewrite (get_tag_complete _ _ _ _ Ht Hs). cbn [bind]. rewrite N, W. cbn [Z.eqb Pos.eqb negb].
    pose proof (suffix_app _ _ _ _ Hs) as Hs1. rewrite (get_bytes_complete _ _ _ _ _ Hd Hn Hs1). cbn [bind]. apply IH.
    + exact (suffix_app _ _ _ _ (suffix_app _ _ _ _ Hs1)).
    + pose proof (len_nonneg n). pose proof (len_nonneg b). lia.
  - destruct (field_room _ _ _ _ _ Ht Hs Hf) as (L & f' & -> & Hf'). cbn [unmarshal_wkey_loop].
    destruct (Z.leb_spec (len d) idx); [lia|]. rewrite (get_tag_complete _ _ _ _ Ht Hs). cbn [bind]. rewrite N, W. cbn [Z.eqb Pos.eqb negb].
    pose proof (suffix_app _ _ _ _ Hs) as Hs1. rewrite (get_bytes_complete _ _ _ _ _ Hd Hn Hs1). cbn [bind]. apply IH.
    + exact (suffix_app _ _ _ _ (suffix_app _ _ _ _ Hs1)).
    + pose proof (len_nonneg n). pose proof (len_nonneg b). lia.
  - destruct (field_room _ _ _ _ _ Ht Hs Hf) as (L & f' & -> & Hf'). cbn [unmarshal_wkey_loop].
    destruct (Z.leb_spec (len d) idx); [lia|]. rewrite (get_tag_complete _ _ _ _ Ht Hs). cbn [bind].
    destruct (Z.eqb_spec (tag_num t) 1); [lia|]. destruct (Z.eqb_spec (tag_num t) 2); [lia|].
    rewrite (get_unknown_complete _ _ _ _ _ Hd (proj1 Ht) Hp Hs). cbn [bind]. apply IH.
    + exact (suffix_app _ _ _ _ (suffix_app _ _ _ _ Hs)).
    + pose proof (len_nonneg p). lia.
Qed.

Lemma unmarshal_wkey_iff d k : len d < 2 ^ 62 -> (unmarshal_wkey d = Ok k <-> decodes_wkey empty_wkey d k).
Proof.
  intros Hd. unfold unmarshal_wkey. split.
  - apply wkey_loop_sound; [exact Hd|apply suffix_whole].
  - intros H. eapply wkey_loop_complete; [exact Hd|exact H|apply suffix_whole|unfold len; lia].
Qed.

(** ** Header *)
Lemma header_loop_sound d : len d < 2 ^ 62 -> forall f idx m s h, at_suffix d idx s ->
  unmarshal_header_loop f d idx m = Ok h -> decodes m s h.
Proof.
  intros Hd. induction f as [|f IH]; intros idx m s h Hs H; cbn [unmarshal_header_loop] in H; pose proof Hs as (G0 & G1 & _);
    pose proof (len_nonneg s) as G2.
  { destruct (Z.leb_spec (len d) idx) as [L|L]; [|discriminate H]. destruct (Z.ltb_spec (len d) idx); [discriminate H|].
    injection H as <-. destruct s as [|x s]; [constructor|rewrite len_cons in *; pose proof (len_nonneg s); lia]. }
  destruct (Z.leb_spec (len d) idx) as [L|L].
  { destruct (Z.ltb_spec (len d) idx); [discriminate H|].
    injection H as <-. destruct s as [|x s]; [constructor|rewrite len_cons in *; pose proof (len_nonneg s); lia]. }
  destruct (get_tag d idx) as [[[num w] i1]| |] eqn:Et; cbn [bind] in H; [|discriminate H|discriminate H].
  destruct (get_tag_sound _ _ _ _ _ _ Hs Et) as (t & s1 & -> & Ht & -> & -> & -> & Hs1).
  destruct (Z.eqb_spec (tag_num t) 1) as [E1|E1].
  { destruct (Z.eqb_spec (tag_wire t) 0) as [W|W]; cbn [negb] in H; [|discriminate H].
    destruct (varint_at 32 d (idx + len t)) as [[v i2]| |] eqn:Eb; cbn [bind] in H; [|discriminate H|discriminate H].
    destruct (varint_at_sound 32 _ _ _ _ _ ltac:(lia) Hs1 Eb) as (vb & r & -> & Hv & -> & Hr & ->).
    eapply d_chunk; eauto. }
  assert (B : forall (P : bytes -> bytes -> Prop) (K : bytes -> Z -> res header),
     (forall b n r, delimited n b -> at_suffix d (idx + len t + len n + len b) r -> K b (idx + len t + len n + len b) = Ok h -> P b (n ++ b ++ r)) ->
     ('(b, i2) <- get_bytes d (idx + len t) ;; K b i2) = Ok h -> exists b, P b s1).
  { intros P K HP HK. destruct (get_bytes d (idx + len t)) as [[b i2]| |] eqn:Eb; cbn [bind] in HK; [|discriminate HK|discriminate HK].
    destruct (get_bytes_sound _ _ _ _ _ Hd Hs1 Eb) as (n & r & -> & Hn & -> & Hr). exists b. apply HP; assumption. }
  destruct (Z.eqb_spec (tag_num t) 2) as [E2|E2].
  { destruct (Z.eqb_spec (tag_wire t) 2) as [W|W]; cbn [negb] in H; [|discriminate H].
    eapply (B (fun _ s1 => decodes m (t ++ s1) h)) in H as (_ & H); [exact H|]. cbn. intros b n r Hn Hr K. eapply d_salt; eauto. }
  destruct (Z.eqb_spec (tag_num t) 3) as [E3|E3].
  { destruct (Z.eqb_spec (tag_wire t) 2) as [W|W]; cbn [negb] in H; [|discriminate H].
    eapply (B (fun _ s1 => decodes m (t ++ s1) h)) in H as (_ & H); [exact H|]. cbn. intros b n r Hn Hr K. eapply d_pk; eauto. }
  destruct (Z.eqb_spec (tag_num t) 4) as [E4|E4].
  { destruct (Z.eqb_spec (tag_wire t) 2) as [W|W]; cbn [negb] in H; [|discriminate H].
    eapply (B (fun _ s1 => decodes m (t ++ s1) h)) in H as (_ & H); [exact H|]. cbn. intros b n r Hn Hr K. eapply d_sender; eauto. }
  destruct (Z.eqb_spec (tag_num t) 5) as [E5|E5].
  { destruct (Z.eqb_spec (tag_wire t) 2) as [W|W]; cbn [negb] in H; [|discriminate H].
    eapply (B (fun _ s1 => decodes m (t ++ s1) h)) in H as (_ & H); [exact H|]. cbn. intros b n r Hn Hr K.
    destruct (unmarshal_wkey b) as [k| |] eqn:Ek; cbn [bind] in K; [|discriminate K|discriminate K].
    assert (len b < 2 ^ 62). { destruct Hr as (R0 & R1 & _). pose proof (len_nonneg r). pose proof (len_nonneg n). pose proof (len_nonneg t). lia. }
    apply unmarshal_wkey_iff in Ek; [|assumption]. eapply d_key; eauto. }
  destruct (get_unknown d idx) as [[b i2]| |] eqn:Eb; cbn [bind] in H; [|discriminate H|discriminate H].
  destruct (get_unknown_sound _ _ _ _ _ Hd Hs Eb) as (t' & p & r & E & -> & Ht' & Hp & -> & Hr).
  assert (t' = t) as ->.
  { destruct Ht as (Ht & _). pose proof (varint_at_complete 64 _ _ _ _ ltac:(lia) Ht Hs) as A.
    rewrite E in Hs. pose proof (varint_at_complete 64 _ _ _ _ ltac:(lia) Ht' Hs) as B'. rewrite A in B'. injection B' as _ B'.
    assert (len t = len t') by lia. symmetry. eapply app_len_inj; eauto. }
  apply app_inv_head in E as ->. eapply d_other; eauto. destruct Ht as (_ & Ht & _). lia.
Qed.

Lemma header_loop_complete d : len d < 2 ^ 62 -> forall m s h, decodes m s h -> forall f idx, at_suffix d idx s ->
  len d - idx <= Z.of_nat f -> unmarshal_header_loop f d idx m = Ok h.
Proof.
  intros Hd m s h H.
  induction H as [m|m t v r m' Ht N W Hv _ IH|m t n b r m' Ht N W Hn _ IH|m t n b r m' Ht N W Hn _ IH|m t n b r m' Ht N W Hn _ IH
                 |m t n b k r m' Ht N W Hn Hk _ IH|m t p r m' Ht N Hp _ IH]; intros f idx Hs Hf.
  1:{ destruct Hs as (G0 & G1 & _). change (len (@nil byte)) with 0 in G1. replace idx with (len d) by lia. apply header_done. }
  all: destruct (field_room _ _ _ _ _ Ht Hs Hf) as (L & f' & -> & Hf'); cbn [unmarshal_header_loop];
    destruct (Z.leb_spec (len d) idx); [lia|]; rewrite (get_tag_complete _ _ _ _ Ht Hs); cbn [bind];
    pose proof (suffix_app _ _ _ _ Hs) as Hs1.
  1:{ rewrite N, W. cbn [Z.eqb Pos.eqb negb]. rewrite (varint_at_complete 32 _ _ _ _ ltac:(lia) Hv Hs1). cbn [bind]. apply IH.
      - exact (suffix_app _ _ _ _ Hs1).
      - pose proof (len_nonneg v). lia. }
  5:{ destruct (Z.eqb_spec (tag_num t) 1); [lia|]. destruct (Z.eqb_spec (tag_num t) 2); [lia|]. destruct (Z.eqb_spec (tag_num t) 3); [lia|].
      destruct (Z.eqb_spec (tag_num t) 4); [lia|]. destruct (Z.eqb_spec (tag_num t) 5); [lia|].
      rewrite (get_unknown_complete _ _ _ _ _ Hd (proj1 Ht) Hp Hs). cbn [bind]. apply IH.
      - exact (suffix_app _ _ _ _ Hs1).
      - pose proof (len_nonneg p). lia. }
  all: rewrite N, W; cbn [Z.eqb Pos.eqb negb]; rewrite (get_bytes_complete _ _ _ _ _ Hd Hn Hs1); cbn [bind].
  4:{ assert (Hb : len b < 2 ^ 62). { destruct Hs1 as (R0 & R1 & _). rewrite !len_app in R1. pose proof (len_nonneg r). pose proof (len_nonneg n). pose proof (len_nonneg t). lia. }
      rewrite (proj2 (unmarshal_wkey_iff b k Hb) Hk). cbn [bind]. apply IH.
      - exact (suffix_app _ _ _ _ (suffix_app _ _ _ _ Hs1)).
      - pose proof (len_nonneg n). pose proof (len_nonneg b). lia. }
  all: apply IH; [exact (suffix_app _ _ _ _ (suffix_app _ _ _ _ Hs1))|pose proof (len_nonneg n); pose proof (len_nonneg b); lia].
Qed.

Lemma unmarshal_header_iff d h : len d < 2 ^ 62 -> (unmarshal_header d = Ok h <-> decodes empty_header d h).
Proof.
  intros Hd. unfold unmarshal_header. split.
  - apply header_loop_sound; [exact Hd|apply suffix_whole].
  - intros H. eapply header_loop_complete; [exact Hd|exact H|apply suffix_whole|unfold len; lia].
Qed.

(** ** Re-encoding *)
Lemma leb128_varint g : forall v, 0 <= v < 2 ^ (7 * Z.of_nat g) -> (0 < g)%nat -> (g <= 10)%nat ->
  is_varint (leb128 g v) /\ digits (leb128 g v) = v /\ len (leb128 g v) <= Z.of_nat g.
Proof.
  induction g as [|g IH]; intros v Hv Hg Hg'; cbn [leb128]; [lia|].
  destruct (Z.ltb_spec v 128) as [H|H].
  - split; [apply is_varint_one; rewrite b2z_z2b by lia; lia|]. cbn [digits]. rewrite b2z_z2b by lia. split; [lia|cbn; lia].
  - assert (Hv' : 0 <= v / 128 < 2 ^ (7 * Z.of_nat g)).
    { split; [lia|]. apply Z.div_lt_upper_bound; [lia|]. replace (7 * Z.of_nat (S g)) with (7 + 7 * Z.of_nat g) in Hv by lia.
      rewrite Z.pow_add_r in Hv by lia. change (2 ^ 7) with 128 in Hv. lia. }
    destruct g as [|g]; [cbn in Hv'; lia|].
    destruct (IH (v / 128) Hv' ltac:(lia) ltac:(lia)) as (I1 & I2 & I3).
    assert (R : 0 <= v mod 128 + 128 < 256) by lia.
    split; [apply is_varint_cons; [rewrite b2z_z2b by lia; lia|exact I1|lia]|]. rewrite len_cons.
    cbn [digits] in *. rewrite b2z_z2b by lia. split; [|lia]. rewrite I2. lia.
Qed.
Lemma varint_is v : 0 <= v < 2 ^ 64 -> is_varint (varint v) /\ digits (varint v) = v.
Proof. intros H. unfold varint. destruct (leb128_varint 10 v) as (A & B & _); [|lia|lia|auto]. change (2 ^ (7 * Z.of_nat 10)) with (2 ^ 70). lia. Qed.

Lemma delimited_canonical b : len b < 2 ^ 63 -> delimited (varint (len b)) b.
Proof.
  intros H. pose proof (len_nonneg b). destruct (varint_is (len b) ltac:(lia)) as (A & B). split; [exact A|].
  unfold vval. rewrite B. apply Z.mod_small. lia.
Qed.
Lemma field_tag_canonical num w : 0 < num < 16 -> 0 <= w < 8 -> w <> 4 ->
  field_tag (varint (num * 8 + w)) /\ tag_num (varint (num * 8 + w)) = num /\ tag_wire (varint (num * 8 + w)) = w.
Proof.
  intros Hn Hw H4. destruct (varint_is (num * 8 + w) ltac:(lia)) as (A & B).
  assert (V : vval (varint (num * 8 + w)) = num * 8 + w) by (unfold vval; rewrite B; apply Z.mod_small; lia).
  assert (N : tag_num (varint (num * 8 + w)) = num).
  { unfold tag_num. rewrite V. replace ((num * 8 + w) / 8) with num by lia. unfold i32. rewrite Z.mod_small by lia. lia. }
  assert (W : tag_wire (varint (num * 8 + w)) = w) by (unfold tag_wire; rewrite V; lia).
  split; [split; [exact A|split; [lia|congruence]]|]. auto.
Qed.

Lemma decodes_wkey_app m s m1 : decodes_wkey m s m1 -> forall s2 m2, decodes_wkey m1 s2 m2 -> decodes_wkey m (s ++ s2) m2.
Proof.
  induction 1 as [m|m t n b r m' Ht N W Hn _ IH|m t n b r m' Ht N W Hn _ IH|m t p r m' Ht N Hp _ IH]; intros s2 m2 H2; [exact H2| | |].
  all: rewrite <- !app_assoc.
  - eapply dw_dkey; eauto.
  - eapply dw_nonce; eauto.
  - eapply dw_other; eauto.
Qed.
Lemma decodes_app m s m1 : decodes m s m1 -> forall s2 m2, decodes m1 s2 m2 -> decodes m (s ++ s2) m2.
Proof.
  induction 1 as [m|m t v r m' Ht N W Hv _ IH|m t n b r m' Ht N W Hn _ IH|m t n b r m' Ht N W Hn _ IH|m t n b r m' Ht N W Hn _ IH
                 |m t n b k r m' Ht N W Hn Hk _ IH|m t p r m' Ht N Hp _ IH]; intros s2 m2 H2; [exact H2|..].
  all: rewrite <- !app_assoc.
  - eapply d_chunk; eauto.
  - eapply d_salt; eauto.
  - eapply d_pk; eauto.
  - eapply d_sender; eauto.
  - eapply d_key; eauto.
  - eapply d_other; eauto.
Qed.

Lemma unknown_app n s1 s2 : unknown_fields n s1 -> unknown_fields n s2 -> unknown_fields n (s1 ++ s2).
Proof. induction 1 as [|t p r Ht N Hp _ IH]; intros H2; [exact H2|]. rewrite <- !app_assoc. constructor; auto. Qed.
Lemma unknown_one n t p : field_tag t -> n < tag_num t -> payload (tag_wire t) p -> unknown_fields n (t ++ p).
Proof. intros. rewrite <- (app_nil_r p). constructor; auto. constructor. Qed.

Lemma decodes_wkey_unknown m s k : decodes_wkey m s k -> unknown_fields 2 (w_unk m) -> unknown_fields 2 (w_unk k).
Proof.
  induction 1 as [m|m t n b r m' Ht N W Hn _ IH|m t n b r m' Ht N W Hn _ IH|m t p r m' Ht N Hp _ IH]; intros H2; auto.
  apply IH. cbn. apply unknown_app; [exact H2|]. apply unknown_one; auto.
Qed.
Lemma decodes_wellformed m s h : decodes m s h -> pb_wellformed m -> pb_wellformed h.
Proof.
  induction 1 as [m|m t v r m' Ht N W Hv _ IH|m t n b r m' Ht N W Hn _ IH|m t n b r m' Ht N W Hn _ IH|m t n b r m' Ht N W Hn _ IH
                 |m t n b k r m' Ht N W Hn Hk _ IH|m t p r m' Ht N Hp _ IH]; intros [H1 H2]; try (apply IH; split; assumption); [split; assumption|..].
  - apply IH. split; [exact H1|]. cbn. apply Forall_app. split; [exact H2|]. constructor; [|constructor].
    eapply decodes_wkey_unknown; [exact Hk|constructor].
  - apply IH. split; [|exact H2]. cbn. apply unknown_app; [exact H1|]. apply unknown_one; auto.
Qed.

Lemma wkey_unknown_decodes u : unknown_fields 2 u -> forall m, decodes_wkey m u (mkWkey (w_dkey m) (w_nonce m) (w_unk m ++ u)).
Proof.
  induction 1 as [|t p r Ht N Hp _ IH]; intros m; [rewrite app_nil_r; destruct m; constructor|].
  eapply dw_other; eauto. specialize (IH (mkWkey (w_dkey m) (w_nonce m) (w_unk m ++ t ++ p))). cbn in IH. rewrite <- !app_assoc in IH. exact IH.
Qed.
Lemma header_unknown_decodes u : unknown_fields 5 u -> forall m,
  decodes m u (mkHeader (h_chunk m) (h_salt m) (h_pk m) (h_sender m) (h_keys m) (h_unk m ++ u)).
Proof.
  induction 1 as [|t p r Ht N Hp _ IH]; intros m; [rewrite app_nil_r; destruct m; constructor|].
  eapply d_other; eauto. specialize (IH (mkHeader (h_chunk m) (h_salt m) (h_pk m) (h_sender m) (h_keys m) (h_unk m ++ t ++ p))).
  cbn in IH. rewrite <- !app_assoc in IH. exact IH.
Qed.

Lemma pb_wkey_decodes k : len (pb_wkey k) < 2 ^ 63 -> unknown_fields 2 (w_unk k) -> decodes_wkey empty_wkey (pb_wkey k) k.
Proof.
  intros Hl Hu. destruct (wkey_small _ Hl) as (L1 & L2 & _). destruct k as [dk no un]. cbn in *. unfold pb_wkey. cbn.
  apply decodes_wkey_app with (m1 := mkWkey dk [] []); [|apply decodes_wkey_app with (m1 := mkWkey dk no [])].
  - destruct dk as [|x dk]; [constructor|]. unfold pb_bytes. change (1 * 8 + 2) with (1 * 8 + 2).
    destruct (field_tag_canonical 1 2 ltac:(lia) ltac:(lia) ltac:(lia)) as (T & N & W).
    rewrite <- (app_nil_r (x :: dk)) at 2. eapply dw_dkey; eauto; [apply delimited_canonical; exact L1|constructor].
  - destruct no as [|x no]; [constructor|]. unfold pb_bytes.
    destruct (field_tag_canonical 2 2 ltac:(lia) ltac:(lia) ltac:(lia)) as (T & N & W).
    rewrite <- (app_nil_r (x :: no)) at 2. eapply dw_nonce; eauto; [apply delimited_canonical; exact L2|constructor].
  - exact (wkey_unknown_decodes un Hu (mkWkey dk no [])).
Qed.

Lemma pb_keys_decodes ks : keys_small ks -> Forall (fun k => unknown_fields 2 (w_unk k)) ks -> forall m,
  decodes m (pb_keys ks) (mkHeader (h_chunk m) (h_salt m) (h_pk m) (h_sender m) (h_keys m ++ ks) (h_unk m)).
Proof.
  intros Hs Hu. induction ks as [|k ks IH]; intros m.
  { rewrite app_nil_r. destruct m. constructor. }
  inversion Hs as [|? ? Hk Hks]; subst. inversion Hu as [|? ? Uk Uks]; subst.
  unfold pb_keys. cbn [map List.concat]. fold (pb_keys ks). unfold pb_msg. rewrite <- !app_assoc.
  destruct (field_tag_canonical 5 2 ltac:(lia) ltac:(lia) ltac:(lia)) as (T & N & W).
  eapply d_key; eauto; [apply delimited_canonical; exact Hk|apply pb_wkey_decodes; assumption|].
  specialize (IH Hks Uks (mkHeader (h_chunk m) (h_salt m) (h_pk m) (h_sender m) (h_keys m ++ [k]) (h_unk m))). cbn in IH.
  rewrite <- app_assoc in IH. exact IH.
Qed.

Lemma pb_header_decodes h : pb_small h -> pb_wellformed h -> decodes empty_header (pb_header h) h.
Proof.
  intros Hs [Hu Hk]. destruct (pb_small_parts _ Hs) as (L1 & L2 & L3 & L4 & L5 & _). destruct Hs as [Hc Hl].
  unfold pb_header. fold (pb_keys (h_keys h)). destruct h as [c sa pk se ks un]. cbn in *.
  apply decodes_app with (m1 := mkHeader c [] [] [] [] []).
  { unfold pb_uint. destruct (Z.eqb_spec c 0) as [->|E]; [constructor|].
    destruct (field_tag_canonical 1 0 ltac:(lia) ltac:(lia) ltac:(lia)) as (T & N & W). change (1 * 8 + 0) with (1 * 8) in *.
    destruct (varint_is c ltac:(lia)) as (V1 & V2). rewrite <- (app_nil_r (varint c)).
    eapply d_chunk; eauto. rewrite V2, Z.mod_small by lia. constructor. }
  apply decodes_app with (m1 := mkHeader c sa [] [] [] []).
  { destruct sa as [|x sa]; [constructor|]. unfold pb_bytes.
    destruct (field_tag_canonical 2 2 ltac:(lia) ltac:(lia) ltac:(lia)) as (T & N & W).
    rewrite <- (app_nil_r (x :: sa)) at 2. eapply d_salt; eauto; [apply delimited_canonical; lia|constructor]. }
  apply decodes_app with (m1 := mkHeader c sa pk [] [] []).
  { destruct pk as [|x pk]; [constructor|]. unfold pb_bytes.
    destruct (field_tag_canonical 3 2 ltac:(lia) ltac:(lia) ltac:(lia)) as (T & N & W).
    rewrite <- (app_nil_r (x :: pk)) at 2. eapply d_pk; eauto; [apply delimited_canonical; lia|constructor]. }
  apply decodes_app with (m1 := mkHeader c sa pk se [] []).
  { destruct se as [|x se]; [constructor|]. unfold pb_bytes.
    destruct (field_tag_canonical 4 2 ltac:(lia) ltac:(lia) ltac:(lia)) as (T & N & W).
    rewrite <- (app_nil_r (x :: se)) at 2. eapply d_sender; eauto; [apply delimited_canonical; lia|constructor]. }
  apply decodes_app with (m1 := mkHeader c sa pk se ks []).
  { exact (pb_keys_decodes ks L4 Hk (mkHeader c sa pk se [] [])). }
  exact (header_unknown_decodes un Hu (mkHeader c sa pk se ks [])).
Qed.
