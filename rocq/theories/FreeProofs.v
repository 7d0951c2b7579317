(** Encrypt and Decrypt on a destination that accepted everything: they write what they write to any other such
    destination; and they leave Close alone until the end. *)
From Verif Require Import Bytes BytesLemmas GoErr GoIO SpecIO IOProofs Pb Crypto CryptoLaws Keys Encrypt Decrypt Spec EncryptProofs DecryptProofs Support.
Require Import ZifyBool.

(** a destination without limits *)
Notation free o cl n := (mkWriter o [] cl n).
Lemma fullwrite_free b o cl n : fullwrite b (free o cl n) = (None, free (o ++ b) cl n).
Proof. unfold fullwrite. cbn. destruct b; cbn; [rewrite app_nil_r|]; reflexivity. Qed.
Definition adds (w w' : writer) (s : bytes) : Prop := later w w' /\ w_out w' = w_out w ++ s.
Lemma adds_refl w : adds w w [].
Proof. split; [apply later_refl|rewrite app_nil_r; reflexivity]. Qed.
Lemma adds_trans a b c s t : adds a b s -> adds b c t -> adds a c (s ++ t).
Proof. intros [H1 H2] [H3 H4]. split; [eapply later_trans; eauto|]. rewrite H4, H2, app_assoc. reflexivity. Qed.
Lemma fullwrite_adds b w w' : fullwrite b w = (None, w') -> adds w w' b.
Proof. intros H. apply fullwrite_None in H. split; apply H. Qed.

Lemma enc_start_free C e w e' w' rs : enc_start C e w = (e', w', rs) -> later w w' /\
  (rs = Ok tt -> exists s, adds w w' s /\ forall o cl n, enc_start C e (free o cl n) = (e', free (o ++ s) cl n, Ok tt)).
Proof.
  unfold enc_start. destruct (marshal_to _ _) as [v|x|x]; cbv zeta; [|intros H; injection H as <- <- <-; split; [apply later_refl|discriminate]..].
  destruct (new_gcm _) as [k|x|x]; [|intros H; injection H as <- <- <-; split; [apply later_refl|discriminate]..].
  destruct (fullwrite _ w) as [[x|] w1] eqn:E; intros H; injection H as <- <- <-; (split; [eapply fullwrite_later; exact E|]); [discriminate|].
  intros _. eexists. split; [eapply fullwrite_adds; exact E|]. intros o cl n. rewrite fullwrite_free. reflexivity.
Qed.
Lemma write_trailer_free C e w g w' g' rs : write_trailer C e w g = (w', g', rs) -> later w w' /\
  (rs = Ok tt -> exists s, adds w w' s /\ forall o cl n, write_trailer C e (free o cl n) g = (free (o ++ s) cl n, g', Ok tt)).
Proof.
  unfold write_trailer. destruct (match e_auth e with true => _ | false => _ end) as [[tr|x|x] g1]; [|intros H; injection H as <- <- <-; split; [apply later_refl|discriminate]..].
  destruct (fullwrite tr w) as [[x|] w1] eqn:E; intros H; injection H as <- <- <-; (split; [eapply fullwrite_later; exact E|]); [discriminate|].
  intros _. eexists. split; [eapply fullwrite_adds; exact E|]. intros o cl n. rewrite fullwrite_free. reflexivity.
Qed.
Lemma enc_block_free C e pt w i eof g e' w' g' rs : enc_block C e pt w i eof g = (e', w', g', rs) -> later w w' /\
  (rs = Ok tt -> exists s, adds w w' s /\ forall o cl n, enc_block C e pt (free o cl n) i eof g = (e', free (o ++ s) cl n, g', Ok tt)).
Proof.
  unfold enc_block. destruct (e_ae e) as [k|]; [|intros H; injection H as <- <- <- <-; split; [apply later_refl|discriminate]].
  destruct (e_hmac e) as [[hk hd]|]; [|intros H; injection H as <- <- <- <-; split; [apply later_refl|discriminate]]. cbv zeta.
  destruct (_ <? _); [intros H; injection H as <- <- <- <-; split; [apply later_refl|discriminate]|].
  destruct (fullwrite _ w) as [[x|] w1] eqn:E; [intros H; injection H as <- <- <- <-; split; [eapply fullwrite_later; exact E|discriminate]|].
  pose proof (fullwrite_adds _ _ _ E) as A. destruct eof.
  - destruct (write_trailer _ _ _ _) as [[w2 g2] rs2] eqn:Et. intros H. injection H as <- <- <- <-. apply write_trailer_free in Et. destruct Et as (L & F).
    split; [eapply later_trans; [apply A|exact L]|]. intros ->. destruct (F eq_refl) as (s & As & Fs). eexists. split; [eapply adds_trans; [exact A|exact As]|].
    intros o cl n. rewrite fullwrite_free, Fs, <- (app_assoc o). reflexivity.
  - intros H. injection H as <- <- <- <-. split; [apply A|]. intros _. eexists. split; [exact A|]. intros o cl n. rewrite fullwrite_free. reflexivity.
Qed.
Lemma enc_loop_free C fuel : forall e r w i g e' r' w' g' rs, enc_loop C fuel e r w i g = (e', r', w', g', rs) -> later w w' /\
  (rs = Ok tt -> exists s, adds w w' s /\ forall o cl n, enc_loop C fuel e r (free o cl n) i g = (e', r', free (o ++ s) cl n, g', Ok tt)).
Proof.
  induction fuel as [|fuel IH]; intros e r w i g e' r' w' g' rs H; [injection H as <- <- <- <- <-; split; [apply later_refl|discriminate]|].
  rewrite enc_loop_S in H. destruct (read_full r (h_chunk (e_hdr e))) as [[b err] r1] eqn:Er. cbv zeta in H.
  destruct (match err with None => Ok false | Some IoEOF | Some ErrClosedPipe | Some ErrUnexpectedEOF => Ok true | Some x => Fail (EWrap "encrypt: I/O read error" x) end) as [eof|x|x] eqn:Ee;
    [|injection H as <- <- <- <- <-; split; [apply later_refl|discriminate]..].
  destruct (enc_block C e b w i eof g) as [[[e1 w1] g1] rs1] eqn:Eb. apply enc_block_free in Eb. destruct Eb as (L & F).
  destruct rs1 as [[]|x|x]; [|injection H as <- <- <- <- <-; split; [exact L|discriminate]..].
  destruct (F eq_refl) as (s & As & Fs). destruct eof.
  - injection H as <- <- <- <- <-. split; [exact L|]. intros _. exists s. split; [exact As|]. intros o cl n. rewrite enc_loop_S, Er. cbv zeta. rewrite Ee, Fs. reflexivity.
  - apply IH in H. destruct H as (L2 & F2). split; [eapply later_trans; [exact L|exact L2]|]. intros ->. destruct (F2 eq_refl) as (t & At & Ft).
    exists (s ++ t). split; [eapply adds_trans; [exact As|exact At]|]. intros o cl n. rewrite enc_loop_S, Er. cbv zeta. rewrite Ee, Fs, Ft, app_assoc. reflexivity.
Qed.
(** Encrypt: after an error the destination is not closed, unless Close itself failed; after success it was closed once,
    without error *)
Lemma encrypt_free C e r w g e' r' w' g' rs : encrypt C e r w g = (e', r', w', g', rs) ->
  match rs with
  | Ok _ => clean w w' /\ w_nclosed w' = w_nclosed w + 1 /\ match w_closes w with [] => w_closes w' = [] | c :: cs => c = None /\ w_closes w' = cs end /\
      exists s, w_out w' = w_out w ++ s /\ forall o n, encrypt C e r (free o [] n) g = (e', r', free (o ++ s) [] (n + 1), g', Ok tt)
  | _ => later w w' \/ exists x cs, w_closes w = Some x :: cs
  end.
Proof.
  intros H0. pose proof H0 as H. unfold encrypt in H. destruct (e_stream e) eqn:Est; [injection H as <- <- <- <- <-; left; apply later_refl|].
  destruct (if e_started e then (e, w, Ok tt) else enc_start C e w) as [[e1 w1] rs1] eqn:Es.
  assert (S : later w w1 /\ (rs1 = Ok tt -> exists s, adds w w1 s /\ forall o cl n, (if e_started e then (e, free o cl n, Ok tt) else enc_start C e (free o cl n)) = (e1, free (o ++ s) cl n, Ok tt))).
  { destruct (e_started e); [|apply enc_start_free; exact Es]. injection Es as <- <- <-. split; [apply later_refl|]. intros _. exists []. split; [apply adds_refl|]. intros. rewrite app_nil_r. reflexivity. }
  destruct S as (L & F). destruct rs1 as [[]|x|x]; [|injection H as <- <- <- <- <-; left; exact L..].
  destruct (F eq_refl) as (s & As & Fs). destruct (enc_loop C (S (rd_size r)) e1 r w1 0 g) as [[[[e2 r2] w2] g2] rs2] eqn:El. apply enc_loop_free in El. destruct El as (L2 & F2).
  pose proof (later_trans _ _ _ L L2) as L3. destruct rs2 as [[]|x|x]; [|injection H as <- <- <- <- <-; left; exact L3..].
  destruct (F2 eq_refl) as (t & At & Ft). pose proof (adds_trans _ _ _ _ _ As At) as A. destruct (w_close w2) as [[x|] w3] eqn:Ec; injection H as <- <- <- <- <-.
  - right. unfold w_close in Ec. destruct L3 as (_ & L3 & _). rewrite L3 in Ec. destruct (w_closes w) as [|c cs]; [discriminate Ec|]. injection Ec as -> _. eauto.
  - split; [eapply encrypt_clean; exact H0|]. destruct L3 as (_ & L3 & L4). unfold w_close in Ec. rewrite L3 in Ec. split; [|split].
    + destruct (w_closes w); apply (f_equal snd) in Ec; cbn [snd] in Ec; subst w3; cbn [w_nclosed]; lia.
    + destruct (w_closes w) as [|c cs]; pose proof (f_equal fst Ec) as E1; apply (f_equal snd) in Ec; cbn [fst snd] in E1, Ec; subst w3; auto.
    + exists (s ++ t). destruct A as (_ & A). split; [destruct (w_closes w); apply (f_equal snd) in Ec; cbn [snd] in Ec; subst w3; exact A|]. intros o n. unfold encrypt. rewrite Est, Fs, Ft. cbn [w_close w_closes w_out w_sched w_nclosed]. rewrite app_assoc. reflexivity.
Qed.

Lemma dec_loop_free C fuel : forall d w i d' w' rs, dec_loop C fuel d w i = (d', w', rs) -> later w w' /\
  (rs = Ok tt -> exists s, adds w w' s /\ forall o cl n, dec_loop C fuel d (free o cl n) i = (d', free (o ++ s) cl n, Ok tt)).
Proof.
  induction fuel as [|fuel IH]; intros d w i d' w' rs H; [injection H as <- <- <-; split; [apply later_refl|discriminate]|].
  rewrite dec_loop_S in H. destruct (dec_chunk C d i) as [d1 [[m eof]|x|x]] eqn:Ed; [|injection H as <- <- <-; split; [apply later_refl|discriminate]..]. cbv zeta in H.
  destruct (if 0 <? m then fullwrite (take m (d_buf d1)) w else (None, w)) as [[x|] w1] eqn:E.
  { injection H as <- <- <-. split; [|discriminate]. destruct (0 <? m); [eapply fullwrite_later; exact E|discriminate E]. }
  assert (S : exists s, adds w w1 s /\ forall o cl n, (if 0 <? m then fullwrite (take m (d_buf d1)) (free o cl n) else (None, free o cl n)) = (None, free (o ++ s) cl n)).
  { destruct (0 <? m); [exists (take m (d_buf d1)); split; [apply fullwrite_adds; exact E|intros; apply fullwrite_free]|].
    injection E as <-. exists []. split; [apply adds_refl|]. intros. rewrite app_nil_r. reflexivity. }
  destruct S as (s & As & Fs). destruct eof.
  - injection H as <- <- <-. split; [apply As|]. intros _. exists s. split; [exact As|]. intros o cl n. rewrite dec_loop_S, Ed. cbv zeta. rewrite Fs. reflexivity.
  - apply IH in H. destruct H as (L2 & F2). split; [eapply later_trans; [apply As|exact L2]|]. intros ->. destruct (F2 eq_refl) as (t & At & Ft).
    exists (s ++ t). split; [eapply adds_trans; eauto|]. intros o cl n. rewrite dec_loop_S, Ed. cbv zeta. rewrite Fs, Ft, app_assoc. reflexivity.
Qed.
Lemma decrypt_free C d w d' w' rs : decrypt C d w = (d', w', rs) -> later w w' /\
  (rs = Ok tt -> clean w w' /\ exists s, w_out w' = w_out w ++ s /\ forall o cl n, decrypt C d (free o cl n) = (d', free (o ++ s) cl n, Ok tt)).
Proof.
  intros H0. pose proof H0 as H. unfold decrypt in H. destruct (d_key d) eqn:E1; [|injection H as <- <- <-; split; [apply later_refl|discriminate]].
  destruct (d_stream d) eqn:E2; [injection H as <- <- <-; split; [apply later_refl|discriminate]|]. destruct (d_eof d) eqn:E3; [injection H as <- <- <-; split; [apply later_refl|discriminate]|].
  apply dec_loop_free in H. destruct H as (L & F). split; [exact L|]. intros ->. destruct (F eq_refl) as (s & (_ & As) & Fs).
  split; [eapply decrypt_clean; exact H0|]. exists s. split; [exact As|]. intros o cl n. unfold decrypt. rewrite E1, E2, E3. apply Fs.
Qed.

(** a destination none of whose Writes fails takes everything Decrypt writes to a destination without limits *)
Definition willing (w : writer) : Prop := Forall (fun p => snd p = None) (w_sched w).
Lemma fullwrite_willing b w : willing w -> exists w', fullwrite b w = (None, w') /\ willing w' /\ w_closes w' = w_closes w.
Proof.
  intros H. destruct (fullwrite_accepts b (mkWriter (w_out w) (w_sched w) [] 0)) as (w' & F & _ & [A _] & _); [split; [exact H|constructor]|].
  unfold fullwrite in *. cbn [w_sched w_out] in F. destruct (fullwrite_loop (w_sched w) b (w_out w)) as [[e o] s]. pose proof (f_equal fst F) as E1. apply (f_equal snd) in F. cbn [fst snd] in E1, F. subst e w'.
  eexists. split; [reflexivity|]. split; [exact A|reflexivity].
Qed.
Lemma dec_loop_willing C fuel : forall d w0 i d' w0' w, willing w -> dec_loop C fuel d w0 i = (d', w0', Ok tt) -> exists w', dec_loop C fuel d w i = (d', w', Ok tt).
Proof.
  induction fuel as [|fuel IH]; intros d w0 i d' w0' w Hw H; [discriminate H|].
  rewrite dec_loop_S in *. destruct (dec_chunk C d i) as [d1 [[m eof]|x|x]]; [|discriminate H..]. cbv zeta in *.
  destruct (if 0 <? m then fullwrite (take m (d_buf d1)) w0 else (None, w0)) as [[x|] w1] eqn:E; [discriminate H|].
  assert (S : exists w', (if 0 <? m then fullwrite (take m (d_buf d1)) w else (None, w)) = (None, w') /\ willing w').
  { destruct (0 <? m); [destruct (fullwrite_willing (take m (d_buf d1)) w Hw) as (w' & F & Hw' & _); eauto|eauto]. }
  destruct S as (w' & -> & Hw'). destruct eof; [pose proof (f_equal (fun x => fst (fst x)) H) as E1; cbn [fst] in E1; rewrite E1; eauto|]. eapply IH; eauto.
Qed.
Lemma decrypt_willing C d w0 d' w0' w : willing w -> decrypt C d w0 = (d', w0', Ok tt) -> exists w', decrypt C d w = (d', w', Ok tt).
Proof.
  intros Hw H. unfold decrypt in *. destruct (d_key d); [|discriminate H]. destruct (d_stream d); [discriminate H|]. destruct (d_eof d); [discriminate H|].
  eapply dec_loop_willing; eauto.
Qed.
