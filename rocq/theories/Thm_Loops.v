(** C22, C21: [fullwrite] and [read_full] are loops of single calls of Write and Read, as in the code. *)
From Verif Require Import Bytes BytesLemmas GoErr GoIO.
Require Import ZifyBool.
Local Notation length := List.length.
Local Notation concat := List.concat.

(** ** Specification: the two loops as they are written in Go *)
(** encrypt.go:847-861: n := len(buf); for n > 0 { m, err := wr.Write(buf); if err != nil { return err }; n -= m; buf = buf[m:] }; return nil *)
Inductive write_loop : bytes -> writer -> option goerr -> writer -> Prop :=
| wl_done w : write_loop [] w None w
| wl_fail buf w m x w' : buf <> [] -> w_write w buf = (m, Some x, w') -> write_loop buf w (Some x) w'
| wl_more buf w m w1 e w' : buf <> [] -> w_write w buf = (m, None, w1) -> write_loop (drop m buf) w1 e w' -> write_loop buf w e w'.
(** io.ReadAtLeast(r, buf, len(buf)): for n < min && err == nil { nn, err = r.Read(buf[n:]); n += nn }; if n >= min { err = nil } *)
Inductive at_least : reader -> Z -> bytes -> option goerr -> reader -> Prop :=
| al_none r n : n <= 0 -> at_least r n [] None r
| al_full r n b e r' : 0 < n -> rd_read r n = (b, e, r') -> n <= len b -> at_least r n b None r'
| al_fail r n b x r' : 0 < n -> rd_read r n = (b, Some x, r') -> len b < n -> at_least r n b (Some x) r'
| al_more r n b r1 b2 e r' : 0 < n -> rd_read r n = (b, None, r1) -> len b < n -> at_least r1 (n - len b) b2 e r' -> at_least r n (b ++ b2) e r'.

(** ** Proofs *)
Lemma w_same w : w_with_out w (w_out w) (w_sched w) = w.
Proof. destruct w. reflexivity. Qed.
Lemma write_loop_runs s : forall buf w, w_sched w = s ->
  let '(e, o, s') := fullwrite_loop s buf (w_out w) in write_loop buf w e (w_with_out w o s').
Proof.
  induction s as [|[k e] s IH]; intros [|c buf] w Hs.
  - cbn [fullwrite_loop]. rewrite <- Hs, w_same. constructor.
  - cbn [fullwrite_loop]. eapply wl_more; [discriminate|unfold w_write; rewrite Hs; reflexivity|]. rewrite drop_all by lia. constructor.
  - cbn [fullwrite_loop]. rewrite <- Hs, w_same. constructor.
  - cbn [fullwrite_loop]. destruct e as [x|].
    + eapply wl_fail; [discriminate|]. unfold w_write. rewrite Hs. reflexivity.
    + set (a := take k (c :: buf)). specialize (IH (drop (len a) (c :: buf)) (w_with_out w (w_out w ++ a) s) eq_refl). cbn [w_with_out w_out] in IH.
      destruct (fullwrite_loop s (drop (len a) (c :: buf)) (w_out w ++ a)) as [[e o] s']. eapply wl_more; [discriminate|unfold w_write; rewrite Hs; reflexivity|]. exact IH.
Qed.
Lemma write_loop_one buf w e1 w1 : write_loop buf w e1 w1 -> forall e2 w2, write_loop buf w e2 w2 -> e1 = e2 /\ w1 = w2.
Proof.
  induction 1 as [w|buf w m x w' N H|buf w m wm e w' N H L IH]; intros e2 w2 H2; inversion H2; subst; try congruence; try (split; congruence).
  match goal with X : w_write w buf = (_, None, ?v) |- _ => rewrite H in X; injection X as <- <- end. apply IH. assumption.
Qed.
(** *** C22: fullwrite is exactly the loop of Write calls that the code says: what it returns and leaves is what that loop returns and leaves. *)
Theorem C22_write_loop : forall buf w e w', fullwrite buf w = (e, w') <-> write_loop buf w e w'.
Proof.
  intros buf w e w'. pose proof (write_loop_runs _ buf w eq_refl) as R. unfold fullwrite. destruct (fullwrite_loop (w_sched w) buf (w_out w)) as [[e0 o] s].
  split; [intros H; injection H as <- <-; exact R|]. intros L. destruct (write_loop_one _ _ _ _ R _ _ L) as [-> ->]. reflexivity.
Qed.

Lemma at_least_runs r : forall n, let '(b, e, r') := read_loop r n in at_least r n b e r'.
Proof.
  induction r as [|[b e] r IH]; intros n; cbn [read_loop]; destruct (Z.leb_spec n 0) as [N|N]; try (constructor; exact N).
  - apply al_fail; [exact N|reflexivity|]. exact N.
  - destruct (Z.ltb_spec n (len b)) as [L|L].
    + eapply al_full; [exact N| |].
      * cbn [rd_read]. destruct (Z.ltb_spec n (len b)) as [_|X]; [reflexivity|lia].
      * rewrite len_take_le by lia. lia.
    + assert (R : rd_read ((b, e) :: r) n = (b, e, r)) by (cbn [rd_read]; destruct (Z.ltb_spec n (len b)) as [X|_]; [lia|reflexivity]).
      destruct (Z.eqb_spec n (len b)) as [Q|Q]; [eapply al_full; [exact N|exact R|lia]|]. destruct e as [x|]; [apply al_fail; [exact N|exact R|lia]|].
      specialize (IH (n - len b)). destruct (read_loop r (n - len b)) as [[b2 e2] r2]. eapply al_more; [exact N|exact R|lia|exact IH].
Qed.
Lemma at_least_one r n b1 e1 r1 : at_least r n b1 e1 r1 -> forall b2 e2 r2, at_least r n b2 e2 r2 -> b1 = b2 /\ e1 = e2 /\ r1 = r2.
Proof.
  induction 1 as [r n N|r n b e r' N H L|r n b x r' N H L|r n b rm bm e r' N H L A IH]; intros b2 e2 r2 H2; inversion H2; subst; try lia;
    try (match goal with X : rd_read r n = _ |- _ => rewrite H in X; injection X; intros; subst end); try lia; try discriminate; auto.
  destruct (IH _ _ _ ltac:(eassumption)) as (-> & -> & ->). auto.
Qed.
(** *** C21: io.ReadFull is exactly the loop of Read calls of Go's io package; an end of the data after some bytes is io.ErrUnexpectedEOF. *)
Theorem C21_read_loop : forall r n b e r', read_full r n = (b, e, r') <->
  exists e0, at_least r n b e0 r' /\ e = match e0 with Some IoEOF => Some (if 0 <? len b then ErrUnexpectedEOF else IoEOF) | _ => e0 end.
Proof.
  intros r n b e r'. pose proof (at_least_runs r n) as R. unfold read_full. destruct (read_loop r n) as [[b0 e0] r0]. split.
  - intros H. exists e0. destruct e0 as [[]|]; injection H as <- <- <-; auto.
  - intros (e1 & A & ->). destruct (at_least_one _ _ _ _ _ R _ _ _ A) as (<- & <- & <-). destruct e0 as [[]|]; reflexivity.
Qed.

(** Instances: a destination that takes 2 bytes, then 1, then fails; a source that gives 2 bytes, then 1 *)
Example C22_loop_instance :
  fullwrite (str "abcdef") (mkWriter [] [(2, None); (1, None); (1, Some (EExt 5))] [] 0) = (Some (EExt 5), mkWriter (str "abcd") [] [] 0) /\
  write_loop (str "abcdef") (mkWriter [] [(2, None); (1, None); (1, Some (EExt 5))] [] 0) (Some (EExt 5)) (mkWriter (str "abcd") [] [] 0) /\
  read_full [(str "ab", None); (str "c", None)] 5 = (str "abc", Some ErrUnexpectedEOF, []) /\
  at_least [(str "ab", None); (str "c", None)] 5 (str "abc") (Some IoEOF) [].
Proof.
  assert (F : fullwrite (str "abcdef") (mkWriter [] [(2, None); (1, None); (1, Some (EExt 5))] [] 0) = (Some (EExt 5), mkWriter (str "abcd") [] [] 0)) by reflexivity.
  split; [exact F|]. split; [apply C22_write_loop; exact F|]. split; [reflexivity|]. exact (at_least_runs [(str "ab", None); (str "c", None)] 5).
Qed.
Print Assumptions C22_write_loop.
Print Assumptions C21_read_loop.
