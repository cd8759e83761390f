(** Proofs about opening the channel of SLCAN adapters. *)
From Verif.Base Require Import Prelude.
From Verif.Model Require Import Slcan SlcanInit.
From Verif.Spec Require Import SlcanInitSpec.
Local Open Scope N_scope.

(** ** The bit rates *)
Lemma speed_rates r d : speed_code (Some r) = Some d <-> In (r, d) rates.
Proof.
  split.
  - intros E. unfold speed_code in E.
    assert (H : (r =? 1000000) || (r =? 800000) || (r =? 500000) || (r =? 250000) || (r =? 125000) || (r =? 100000) || (r =? 50000) || (r =? 20000) || (r =? 10000) = true).
    { destruct r as [|r]; [discriminate|]. do 20 (try (destruct r as [r|r|]; try discriminate E; try reflexivity)). }
    rewrite !orb_true_iff, !N.eqb_eq in H. decompose [or] H; subst r; injection E as <-; cbn; tauto.
  - intros H. cbn in H. decompose [or] H; try contradiction; match goal with E : _ = (r, d) |- _ => injection E as <- <- end; reflexivity.
Qed.

(** ** What is seen at the port *)
Section Traced.
  Context {W : Type} (p : port W).
  Notation tp := (traced p).

  Definition emits (c : @code (W * list op)) (R : ending -> list op -> Prop) : Prop :=
    forall s e s', c s = Some (e, s') -> exists l, snd s' = snd s ++ l /\ R e l.

  Lemma emits_next a b Ra Rb : emits a Ra -> emits b Rb ->
    emits (next a b) (fun e l => (e <> Done /\ Ra e l) \/ exists l1 l2, l = l1 ++ l2 /\ Ra Done l1 /\ Rb e l2).
  Proof.
    intros HA HB s e s' E. unfold next in E. destruct (a s) as [[[] w]|] eqn:EA; try discriminate.
    - destruct (HA _ _ _ EA) as (l1 & L1 & R1), (HB _ _ _ E) as (l2 & L2 & R2). exists (l1 ++ l2). split; [rewrite L2, L1; apply eq_sym, app_assoc|].
      right. exists l1, l2. auto.
    - injection E as <- <-. destruct (HA _ _ _ EA) as (l1 & L1 & R1). exists l1. split; [exact L1|left; split; [discriminate|exact R1]].
    - injection E as <- <-. destruct (HA _ _ _ EA) as (l1 & L1 & R1). exists l1. split; [exact L1|left; split; [discriminate|exact R1]].
  Qed.
  Lemma emits_impl c (R S : ending -> list op -> Prop) : emits c R -> (forall e l, R e l -> S e l) -> emits c S.
  Proof. intros H I s e s' E. destruct (H _ _ _ E) as (l & L & X). exists l. auto. Qed.

  Lemma emits_send cmd : emits (send_command tp cmd) (fun e l => l = [Wrote (cmd ++ [13])]).
  Proof.
    intros (w, log) e (w', log') E. unfold send_command, simple in E. cbn in E. destruct (p_write p (cmd ++ [CR]) w) as (ok, v).
    injection E as <- <- <-. eexists. split; reflexivity.
  Qed.
  Lemma emits_flush : emits (simple (p_flush tp)) (fun e l => l = []).
  Proof.
    intros (w, log) e (w', log') E. unfold simple in E. cbn in E. destruct (p_flush p w) as (ok, v). injection E as <- <- <-.
    exists []. split; [cbn; now rewrite app_nil_r|reflexivity].
  Qed.
  Lemma emits_drop : emits (simple (p_drop tp)) (fun e l => l = [Dropped]).
  Proof.
    intros (w, log) e (w', log') E. unfold simple in E. cbn in E. destruct (p_drop p w) as (ok, v). injection E as <- <- <-.
    eexists. split; reflexivity.
  Qed.
  Definition waited (e : ending) (l : list op) : Prop := wrote l = [] /\ (e = Done -> acked l) /\ (e = Refused -> replied l).
  Lemma wrote_bytes junk : wrote (map (fun b => Got (Byte b)) junk) = [].
  Proof. induction junk; [reflexivity|assumption]. Qed.
  Lemma emits_wait n : emits (wait_for_ack tp n) waited.
  Proof.
    assert (G : forall s e s', wait_for_ack tp n s = Some (e, s') -> exists junk g, snd s' = snd s ++ map (fun b => Got (Byte b)) junk ++ [Got g] /\
      ~ In 13 junk /\ ~ In 7 junk /\ match e with Done => g = Byte 13 | Refused => g = Byte 7 \/ g = Nothing | Failed => g = Fault end).
    { induction n as [|n IH]; intros (w, log) e s' E; [discriminate|]. cbn [wait_for_ack] in E. cbn [traced p_read fst snd] in E.
      destruct (p_read p w) as (g, v). destruct g as [b| |].
      - destruct (N.eqb_spec b NACK) as [->|NN]; [injection E as <- <-; exists [], (Byte 7); cbn; tauto|].
        destruct (N.eqb_spec b CR) as [->|NC]; [injection E as <- <-; exists [], (Byte 13); cbn; tauto|].
        destruct (IH _ _ _ E) as (junk & g & L & A & B & C). exists (b :: junk), g. cbn [snd] in L. split; [rewrite L, <- app_assoc; reflexivity|].
        unfold NACK, CR in *. cbn [In]. intuition congruence.
      - injection E as <- <-. exists [], Nothing. cbn; tauto.
      - injection E as <- <-. exists [], Fault. cbn; tauto. }
    intros s e s' E. destruct (G _ _ _ E) as (junk & g & L & A & B & C). eexists. split; [exact L|]. repeat split.
    - unfold wrote. rewrite flat_map_app. fold (wrote (map (fun b => Got (Byte b)) junk)). now rewrite wrote_bytes.
    - intros ->. subst g. exists junk. auto.
    - intros ->. exists junk, g. intuition.
  Qed.
  Lemma emits_tolerate n : emits (tolerate (wait_for_ack tp n)) (fun e l => wrote l = [] /\ (e = Done -> replied l)).
  Proof.
    intros s e s' E. unfold tolerate in E. destruct (wait_for_ack tp n s) as [[e0 w]|] eqn:EW; [|discriminate].
    destruct (emits_wait _ _ _ _ EW) as (l & L & A & B & C). destruct e0; injection E as <- <-; exists l; (split; [exact L|]); (split; [exact A|]); intros X; try discriminate X.
    - destruct (B eq_refl) as (junk & J1 & J2 & J3). exists junk, (Byte 13). auto.
    - now apply C.
  Qed.

  Lemma wrote_app a b : wrote (a ++ b) = wrote a ++ wrote b.
  Proof. apply flat_map_app. Qed.
  Lemma wrote_cons o b : wrote (o :: b) = match o with Wrote x => [x] | _ => [] end ++ wrote b.
  Proof. reflexivity. Qed.

  Lemma went_well_intro d l a b c x e : l = Wrote [13] :: a ++ Dropped :: Wrote [67; 13] :: b ++ Wrote [83; 48 + d; 13] :: c ++ Wrote [79; 13] :: x ++ Wrote [70; 13] :: e ->
    replied a -> replied b -> acked c -> acked x -> replied e -> went_well d l.
  Proof. intros. exists a, b, c, x, e. auto 10. Qed.
  Lemma emits_attempt n d : emits (attempt tp n d) (fun e l => (e = Done -> went_well d l) /\ attempt_writes d (wrote l)).
  Proof.
    eapply emits_impl.
    - unfold attempt. repeat (eapply emits_next; [first [apply emits_send|apply emits_tolerate|apply emits_drop|apply emits_flush|apply emits_wait]|]).
      apply emits_tolerate.
    - cbv beta. unfold waited. intros e l H.
      repeat match goal with
        | H : _ \/ _ |- _ => destruct H as [H|H]
        | H : exists _, _ |- _ => destruct H as (? & H)
        | H : _ /\ _ |- _ => destruct H as (? & H)
        end; subst.
      all: repeat match goal with H : Done = Done -> _ |- _ => specialize (H eq_refl) end.
      all: split; [try contradiction|rewrite ?wrote_app, ?wrote_cons; cbn [wrote flat_map app]; repeat match goal with H : wrote _ = [] |- _ => rewrite H; clear H end;
        eexists; split; [reflexivity|discriminate]].
      intros ->. match goal with H : Done = Done -> _ |- _ => specialize (H eq_refl) end.
      eapply went_well_intro; [reflexivity|eassumption..].
  Qed.

  Lemma emits_attempts n d k : emits (attempts tp n d k) (fun e l =>
    (e = Done -> exists a b, l = a ++ b /\ tries d k (wrote a) /\ went_well d b) /\ tries d (S k) (wrote l)).
  Proof.
    induction k as [|k IH]; intros s e s' E; cbn [attempts] in E; destruct (attempt tp n d s) as [[e0 w]|] eqn:EA; try discriminate;
      destruct (emits_attempt _ _ _ _ _ EA) as (l & L & A & B).
    - assert (e0 = e /\ w = s') as (-> & ->) by (destruct e0; injection E as <- <-; auto). exists l. split; [exact L|]. split.
      + intros X. exists [], l. split; [reflexivity|]. split; [|auto]. exists []. repeat split; auto.
      + exists [wrote l]. cbn. rewrite app_nil_r. repeat split; auto.
    - assert (C : (e0 = Done /\ e = Done /\ w = s') \/ attempts tp n d k w = Some (e, s')) by (destruct e0; [left; injection E as <- <-; auto|right; exact E..]).
      destruct C as [(-> & -> & ->)|C].
      + exists l. split; [exact L|]. split.
        * intros _. exists [], l. split; [reflexivity|]. split; [|auto]. exists []. cbn. repeat split; auto. lia.
        * exists [wrote l]. cbn. rewrite app_nil_r. repeat split; auto. lia.
      + destruct (IH _ _ _ C) as (l2 & L2 & A2 & parts & P1 & P2 & P3). exists (l ++ l2). split; [rewrite L2, L; apply eq_sym, app_assoc|]. split.
        * intros X. destruct (A2 X) as (a & b & -> & (ps & Q1 & Q2 & Q3) & G). exists (l ++ a), b. split; [apply app_assoc|]. split; [|exact G].
          exists (wrote l :: ps). rewrite wrote_app, Q3. cbn. repeat split; auto. lia.
        * exists (wrote l :: parts). rewrite wrote_app, P3. cbn. repeat split; auto. lia.
  Qed.

  Lemma init_seen n bitrate w e w' l : init_adapter tp n bitrate (w, []) = Some (e, (w', l)) ->
    match speed_code bitrate with
    | None => e = Failed /\ l = []
    | Some d => tries d 4 (wrote l) /\ (e = Done -> exists a b, l = a ++ b ++ [Dropped] /\ tries d 3 (wrote a) /\ went_well d b)
    end.
  Proof.
    intros E. unfold init_adapter in E. destruct (speed_code bitrate) as [d|]; [|injection E as <- <- <-; auto].
    destruct (emits_next _ _ _ _ (emits_attempts n d 3) emits_drop _ _ _ E) as (l0 & L & [(N & A & B)|(l1 & l2 & -> & (A & B) & ->)]); cbn in L; subst.
    - split; [exact B|]. intros X. contradiction.
    - rewrite wrote_app. cbn. rewrite app_nil_r. split; [exact B|]. intros _. destruct (A eq_refl) as (a & b & -> & T & G).
      exists a, b. rewrite <- app_assoc. auto.
  Qed.

  (** The record changes nothing. *)
  Definition plainly (c : @code (W * list op)) (c' : @code W) : Prop :=
    forall s, c' (fst s) = match c s with Some (e, t) => Some (e, fst t) | None => None end.
  Lemma plainly_next a b a' b' : plainly a a' -> plainly b b' -> plainly (next a b) (next a' b').
  Proof. intros A B x. unfold next. rewrite A. destruct (a x) as [[[] y]|]; try reflexivity. apply B. Qed.
  Lemma plainly_tolerate a a' : plainly a a' -> plainly (tolerate a) (tolerate a').
  Proof. intros A x. unfold tolerate. rewrite A. destruct (a x) as [[[] y]|]; reflexivity. Qed.
  Lemma plainly_wait n : plainly (wait_for_ack tp n) (wait_for_ack p n).
  Proof.
    induction n as [|n IH]; intros (a, l); [reflexivity|]. cbn [wait_for_ack traced p_read fst snd].
    destruct (p_read p a) as [[b| |] a']; try reflexivity. destruct (b =? NACK); [reflexivity|]. destruct (b =? CR); [reflexivity|].
    apply (IH (a', _)).
  Qed.
  Lemma plainly_send cmd : plainly (send_command tp cmd) (send_command p cmd).
  Proof. intros (a, l). unfold send_command, simple. cbn [fst snd traced p_write]. destruct (p_write p (cmd ++ [CR]) a) as (v, b). reflexivity. Qed.
  Lemma plainly_flush : plainly (simple (p_flush tp)) (simple (p_flush p)).
  Proof. intros (a, l). unfold simple. cbn [fst snd traced p_flush]. destruct (p_flush p a) as (v, b). reflexivity. Qed.
  Lemma plainly_drop : plainly (simple (p_drop tp)) (simple (p_drop p)).
  Proof. intros (a, l). unfold simple. cbn [fst snd traced p_drop]. destruct (p_drop p a) as (v, b). reflexivity. Qed.
  Lemma plainly_attempt n d : plainly (attempt tp n d) (attempt p n d).
  Proof.
    unfold attempt.
    repeat (apply plainly_next; [first [apply plainly_tolerate, plainly_wait|apply plainly_wait|apply plainly_send|apply plainly_flush|apply plainly_drop]|]).
    apply plainly_tolerate, plainly_wait.
  Qed.
  Lemma plainly_attempts n d k : plainly (attempts tp n d k) (attempts p n d k).
  Proof.
    induction k as [|k IH]; intros a; cbn [attempts]; rewrite plainly_attempt; destruct (attempt tp n d a) as [[[] a']|]; try reflexivity; apply IH.
  Qed.
  Lemma plainly_init n r : plainly (init_adapter tp n r) (init_adapter p n r).
  Proof.
    intros a. unfold init_adapter. destruct (speed_code r) as [d|]; [|reflexivity].
    apply plainly_next; [apply plainly_attempts|apply plainly_drop].
  Qed.
  Lemma init_record n r w e w' : init_adapter p n r w = Some (e, w') -> exists l, init_adapter tp n r (w, []) = Some (e, (w', l)).
  Proof.
    intros E. assert (P := plainly_init n r (w, [])). cbn [fst] in P. rewrite E in P.
    destruct (init_adapter tp n r (w, [])) as [[e0 [w0 l0]]|]; [|discriminate]. injection P as <- <-. eauto.
  Qed.
End Traced.

(** ** Adapters *)
Lemma channel_accepted d h last : accepted d last -> channel_after (h ++ last) = {| ch_speed := Some d; ch_open := true |}.
Proof.
  intros (x & y & z & ->). unfold channel_after. rewrite fold_left_app. generalize (fold_left obey h {| ch_speed := None; ch_open := false |}). intros c.
  cbn [fold_left obey]. destruct (obey c ([67], y)) as [sp op]. 
  replace (48 + d - 48) with d by lia. destruct z as [[]|]; reflexivity.
Qed.

Section Adapter.
  Variable reply : history -> list N -> option bool.
  Variable traffic : history -> list N -> list N.
  Notation q := (adapter_port reply traffic).
  Notation st h b := {| ad_history := h; ad_sent := b |}.

  (** Runs with a large enough limit. *)
  Definition runs (c : nat -> code) (a : adapter) (e : ending) (a' : adapter) : Prop :=
    exists n, forall m, (n <= m)%nat -> c m a = Some (e, a').
  Lemma runs_next c1 c2 a a1 e a2 : runs c1 a Done a1 -> runs c2 a1 e a2 -> runs (fun n => next (c1 n) (c2 n)) a e a2.
  Proof.
    intros (n1 & H1) (n2 & H2). exists (Nat.max n1 n2). intros m M. unfold next. rewrite H1 by lia. apply H2. lia.
  Qed.
  Lemma runs_stop c1 c2 a e a1 : e <> Done -> runs c1 a e a1 -> runs (fun n => next (c1 n) (c2 n)) a e a1.
  Proof. intros N (n1 & H1). exists n1. intros m M. unfold next. rewrite H1 by lia. destruct e; congruence. Qed.
  Lemma runs_tolerate c a e a1 : e <> Failed -> runs c a e a1 -> runs (fun n => tolerate (c n)) a Done a1.
  Proof. intros N (n1 & H1). exists n1. intros m M. unfold tolerate. rewrite H1 by lia. destruct e; congruence. Qed.

  (** The wait of a command: any traffic or only the reply. *)
  Lemma wait_ends h b : exists e b', e <> Failed /\ runs (wait_for_ack q) (st h b) e (st h b').
  Proof.
    induction b as [|x b (e & b' & N & n & H)].
    - exists Refused, []. split; [discriminate|]. exists 1%nat. intros [|m] M; [lia|reflexivity].
    - destruct (N.eqb_spec x NACK) as [->|NN]; [|destruct (N.eqb_spec x CR) as [->|NC]].
      + exists Refused, b. split; [discriminate|]. exists 1%nat. intros [|m] M; [lia|reflexivity].
      + exists Done, b. split; [discriminate|]. exists 1%nat. intros [|m] M; [lia|reflexivity].
      + exists e, b'. split; [exact N|]. exists (S n). intros [|m] M; [lia|]. cbn [wait_for_ack p_read adapter_port ad_sent ad_history].
        apply N.eqb_neq in NN, NC. rewrite NN, NC. apply H. lia.
  Qed.
  Definition verdict (r : option bool) : ending := match r with Some true => Done | _ => Refused end.
  Lemma wait_reply h t r : ~ In 13 t -> ~ In 7 t -> runs (wait_for_ack q) (st h (t ++ reply_bytes r)) (verdict r) (st h []).
  Proof.
    induction t as [|x t IH]; intros A B.
    - exists 1%nat. intros [|m] M; [lia|]. destruct r as [[]|]; reflexivity.
    - destruct IH as (n & H); [cbn in *; tauto..|]. exists (S n). intros [|m] M; [lia|]. cbn [wait_for_ack p_read adapter_port ad_sent ad_history app].
      assert (NN : x =? NACK = false) by (apply N.eqb_neq; unfold NACK; cbn in B; intros ->; tauto).
      assert (NC : x =? CR = false) by (apply N.eqb_neq; unfold CR; cbn in A; intros ->; tauto).
      rewrite NN, NC. apply H. lia.
  Qed.
  Lemma send_runs cmd h b : runs (fun _ => send_command q cmd) (st h b) Done
    (st (h ++ [(cmd, reply h cmd)]) (b ++ traffic h cmd ++ reply_bytes (reply h cmd))).
  Proof. exists 0%nat. intros m _. unfold send_command, simple. cbn -[removelast]. now rewrite removelast_last. Qed.
  Lemma flush_runs a : runs (fun _ => simple (p_flush q)) a Done a.
  Proof. exists 0%nat. reflexivity. Qed.
  Lemma drop_runs h b : runs (fun _ => simple (p_drop q)) (st h b) Done (st h []).
  Proof. exists 0%nat. reflexivity. Qed.

  Hypothesis silence : quiet traffic.

  (** The speed or the opening is not acknowledged after some history. *)
  Definition unready (d : N) (n : nat) : Prop := exists g, (n <= length g)%nat /\ (reply g [83; 48 + d] <> Some true \/ reply g [79] <> Some true).
  Lemma unready_le d n m : (m <= n)%nat -> unready d n -> unready d m.
  Proof. intros L (g & A & B). exists g. split; [lia|exact B]. Qed.

  Lemma attempt_runs d h b : exists e b' h', runs (fun n => attempt q n d) (st h b) e (st (h ++ h') b') /\
    (e = Done /\ accepted d h' \/ e = Refused /\ not_accepted d h' /\ unready d (length h)).
  Proof.
    set (h1 := h ++ [([], reply h [])]). set (h2 := h1 ++ [([67], reply h1 [67])]).
    set (h3 := h2 ++ [([83; 48 + d], reply h2 [83; 48 + d])]). set (h4 := h3 ++ [([79], reply h3 [79])]). set (h5 := h4 ++ [([70], reply h4 [70])]).
    destruct (wait_ends h1 (b ++ traffic h [] ++ reply_bytes (reply h []))) as (e1 & b1 & N1 & R1).
    destruct (wait_ends h5 ([] ++ traffic h4 [70] ++ reply_bytes (reply h4 [70]))) as (e5 & b5 & N5 & R5).
    assert (Q : forall g cmd, cmd <> [] -> cmd <> [70] -> runs (wait_for_ack q) (st (g ++ [(cmd, reply g cmd)]) ([] ++ traffic g cmd ++ reply_bytes (reply g cmd)))
      (verdict (reply g cmd)) (st (g ++ [(cmd, reply g cmd)]) [])).
    { intros g cmd A B. destruct (silence g cmd A B) as (X & Y). now apply wait_reply. }
    assert (R2 := Q h1 [67] ltac:(discriminate) ltac:(discriminate)). assert (R3 := Q h2 [83; 48 + d] ltac:(discriminate) ltac:(discriminate)).
    assert (R4 := Q h3 [79] ltac:(discriminate) ltac:(discriminate)). fold h2 in R2. fold h3 in R3. fold h4 in R4.
    set (c := fun n => attempt q n d). assert (C : c = fun n => attempt q n d) by reflexivity. unfold attempt in C.
    destruct (reply h2 [83; 48 + d]) as [[]|] eqn:E3; [destruct (reply h3 [79]) as [[]|] eqn:E4|..].
    - exists Done, b5, [([], reply h []); ([67], reply h1 [67]); ([83; 48 + d], Some true); ([79], Some true); ([70], reply h4 [70])]. split.
      + replace (h ++ _) with h5 by (unfold h5, h4, h3, h2, h1; rewrite <- ?app_assoc; reflexivity). rewrite C.
        eapply runs_next; [apply send_runs|]. fold h1. eapply runs_next; [exact (runs_tolerate _ _ _ _ N1 R1)|].
        eapply runs_next; [apply drop_runs|]. eapply runs_next; [apply send_runs|]. fold h2.
        eapply runs_next; [refine (runs_tolerate _ _ _ _ _ R2); destruct (reply h1 [67]) as [[]|]; discriminate|].
        eapply runs_next; [apply send_runs|]. rewrite E3. fold h3. eapply runs_next; [apply flush_runs|].
        eapply runs_next; [exact R3|]. eapply runs_next; [apply send_runs|]. rewrite E4. fold h4. eapply runs_next; [apply flush_runs|].
        eapply runs_next; [exact R4|]. eapply runs_next; [apply send_runs|]. fold h5. eapply runs_next; [apply flush_runs|].
        exact (runs_tolerate _ _ _ _ N5 R5).
      + left. split; [reflexivity|]. do 3 eexists. reflexivity.
    - exists Refused, [], [([], reply h []); ([67], reply h1 [67]); ([83; 48 + d], Some true); ([79], Some false)]. split.
      + replace (h ++ _) with h4 by (unfold h4, h3, h2, h1; rewrite <- ?app_assoc; reflexivity). rewrite C.
        eapply runs_next; [apply send_runs|]. fold h1. eapply runs_next; [exact (runs_tolerate _ _ _ _ N1 R1)|].
        eapply runs_next; [apply drop_runs|]. eapply runs_next; [apply send_runs|]. fold h2.
        eapply runs_next; [refine (runs_tolerate _ _ _ _ _ R2); destruct (reply h1 [67]) as [[]|]; discriminate|].
        eapply runs_next; [apply send_runs|]. rewrite E3. fold h3. eapply runs_next; [apply flush_runs|].
        eapply runs_next; [exact R3|]. eapply runs_next; [apply send_runs|]. rewrite E4. fold h4. eapply runs_next; [apply flush_runs|].
        eapply runs_stop; [discriminate|exact R4].
      + right. split; [reflexivity|]. split; [do 3 eexists; split; [|right; reflexivity]; discriminate|]. exists h3. split; [unfold h3, h2, h1; rewrite !app_length; lia|right; rewrite E4; discriminate].
    - exists Refused, [], [([], reply h []); ([67], reply h1 [67]); ([83; 48 + d], Some true); ([79], None)]. split.
      + replace (h ++ _) with h4 by (unfold h4, h3, h2, h1; rewrite <- ?app_assoc; reflexivity). rewrite C.
        eapply runs_next; [apply send_runs|]. fold h1. eapply runs_next; [exact (runs_tolerate _ _ _ _ N1 R1)|].
        eapply runs_next; [apply drop_runs|]. eapply runs_next; [apply send_runs|]. fold h2.
        eapply runs_next; [refine (runs_tolerate _ _ _ _ _ R2); destruct (reply h1 [67]) as [[]|]; discriminate|].
        eapply runs_next; [apply send_runs|]. rewrite E3. fold h3. eapply runs_next; [apply flush_runs|].
        eapply runs_next; [exact R3|]. eapply runs_next; [apply send_runs|]. rewrite E4. fold h4. eapply runs_next; [apply flush_runs|].
        eapply runs_stop; [discriminate|exact R4].
      + right. split; [reflexivity|]. split; [do 3 eexists; split; [|right; reflexivity]; discriminate|]. exists h3. split; [unfold h3, h2, h1; rewrite !app_length; lia|right; rewrite E4; discriminate].
    - exists Refused, [], [([], reply h []); ([67], reply h1 [67]); ([83; 48 + d], Some false)]. split.
      + replace (h ++ _) with h3 by (unfold h3, h2, h1; rewrite <- ?app_assoc; reflexivity). rewrite C.
        eapply runs_next; [apply send_runs|]. fold h1. eapply runs_next; [exact (runs_tolerate _ _ _ _ N1 R1)|].
        eapply runs_next; [apply drop_runs|]. eapply runs_next; [apply send_runs|]. fold h2.
        eapply runs_next; [refine (runs_tolerate _ _ _ _ _ R2); destruct (reply h1 [67]) as [[]|]; discriminate|].
        eapply runs_next; [apply send_runs|]. rewrite E3. fold h3. eapply runs_next; [apply flush_runs|].
        eapply runs_stop; [discriminate|exact R3].
      + right. split; [reflexivity|]. split; [do 3 eexists; split; [|left; reflexivity]; discriminate|]. exists h2. split; [unfold h2, h1; rewrite !app_length; lia|left; rewrite E3; discriminate].
    - exists Refused, [], [([], reply h []); ([67], reply h1 [67]); ([83; 48 + d], None)]. split.
      + replace (h ++ _) with h3 by (unfold h3, h2, h1; rewrite <- ?app_assoc; reflexivity). rewrite C.
        eapply runs_next; [apply send_runs|]. fold h1. eapply runs_next; [exact (runs_tolerate _ _ _ _ N1 R1)|].
        eapply runs_next; [apply drop_runs|]. eapply runs_next; [apply send_runs|]. fold h2.
        eapply runs_next; [refine (runs_tolerate _ _ _ _ _ R2); destruct (reply h1 [67]) as [[]|]; discriminate|].
        eapply runs_next; [apply send_runs|]. rewrite E3. fold h3. eapply runs_next; [apply flush_runs|].
        eapply runs_stop; [discriminate|exact R3].
      + right. split; [reflexivity|]. split; [do 3 eexists; split; [|left; reflexivity]; discriminate|]. exists h2. split; [unfold h2, h1; rewrite !app_length; lia|left; rewrite E3; discriminate].
  Qed.

  Lemma attempts_run d k h b : exists e b' fails, runs (fun n => attempts q n d k) (st h b) e b' /\ Forall (not_accepted d) fails /\
    ((length fails <= k)%nat /\ e = Done /\ (exists last, accepted d last /\ ad_history b' = h ++ concat fails ++ last) \/
     length fails = S k /\ e = Refused /\ ad_history b' = h ++ concat fails /\ unready d (length h + 3 * k)).
  Proof.
    revert h b. induction k as [|k IH]; intros h b; destruct (attempt_runs d h b) as (e & b' & h' & (n & R) & [(-> & A)|(-> & A & U)]).
    - exists Done, (st (h ++ h') b'), []. split; [exists n; intros m M; cbn [attempts]; now rewrite R|]. split; [constructor|]. left. split; [cbn; lia|]. split; [reflexivity|]. exists h'. auto.
    - exists Refused, (st (h ++ h') b'), [h']. split; [exists n; intros m M; cbn [attempts]; now rewrite R|]. split; [auto|]. right. cbn. rewrite app_nil_r, Nat.add_0_r. auto.
    - exists Done, (st (h ++ h') b'), []. split; [exists n; intros m M; cbn [attempts]; now rewrite R|]. split; [constructor|]. left. split; [cbn; lia|]. split; [reflexivity|]. exists h'. auto.
    - destruct (IH (h ++ h') b') as (e2 & b2 & fails & (n2 & R2) & F & C). exists e2, b2, (h' :: fails). split.
      { exists (Nat.max n n2). intros m M. cbn [attempts]. rewrite R by lia. apply R2. lia. }
      split; [auto|]. destruct C as [(L & -> & last & AL & E)|(L & -> & E & U2)].
      + left. split; [cbn; lia|]. split; [reflexivity|]. exists last. split; [exact AL|]. rewrite E. cbn. now rewrite <- !app_assoc.
      + right. split; [cbn; lia|]. split; [reflexivity|]. split; [rewrite E; cbn; now rewrite <- !app_assoc|].
        refine (unready_le _ _ _ _ U2). rewrite app_length. assert (3 <= length h')%nat by (destruct A as (? & ? & ? & _ & [->| ->]); cbn; lia). lia.
  Qed.

  Lemma init_runs bitrate d h b : speed_code bitrate = Some d -> exists e b' fails, runs (fun n => init_adapter q n bitrate) (st h b) e b' /\ Forall (not_accepted d) fails /\
    ((length fails <= 3)%nat /\ e = Done /\ (exists last, accepted d last /\ ad_history b' = h ++ concat fails ++ last) \/
     length fails = 4%nat /\ e = Refused /\ ad_history b' = h ++ concat fails /\ unready d (length h + 9)).
  Proof.
    intros S. destruct (attempts_run d 3 h b) as (e & b' & fails & R & F & [(L & -> & last & A & E)|(L & -> & E & U)]).
    - exists Done, (st (ad_history b') []), fails. split; [|eauto 10]. unfold init_adapter. rewrite S.
      destruct b' as [h' b']. apply (runs_next (fun n => attempts q n d 3) (fun _ => simple (p_drop q)) _ (st h' b')); [exact R|]. apply drop_runs.
    - exists Refused, b', fails. split; [|eauto 10]. unfold init_adapter. rewrite S.
      apply (runs_stop (fun n => attempts q n d 3) (fun _ => simple (p_drop q))); [discriminate|exact R].
  Qed.
End Adapter.

(** ** Lost ports *)
Section Device.
  Variable q : port adapter.
  Notation up a := {| dv_adapter := a; dv_open := true; dv_down := 0 |}.
  Notation dp := (device_port q).

  Definition same (c : @code device) (c' : @code adapter) : Prop :=
    forall a, c (up a) = match c' a with Some (e, a') => Some (e, up a') | None => None end.
  Lemma same_next a b a' b' : same a a' -> same b b' -> same (next a b) (next a' b').
  Proof. intros A B x. unfold next. rewrite A. destruct (a' x) as [[[] y]|]; try reflexivity. apply B. Qed.
  Lemma same_tolerate a a' : same a a' -> same (tolerate a) (tolerate a').
  Proof. intros A x. unfold tolerate. rewrite A. destruct (a' x) as [[[] y]|]; reflexivity. Qed.
  Lemma same_simple (f : device -> bool * device) (g : adapter -> bool * adapter) : (forall a, f (up a) = let (v, b) := g a in (v, up b)) -> same (simple f) (simple g).
  Proof. intros A x. unfold simple. rewrite A. destruct (g x) as (v, b). reflexivity. Qed.
  Lemma same_wait n : same (wait_for_ack dp n) (wait_for_ack q n).
  Proof.
    induction n as [|n IH]; intros a; [reflexivity|]. cbn [wait_for_ack].
    replace (p_read dp (up a)) with (let (v, b) := p_read q a in (v, up b)) by reflexivity. destruct (p_read q a) as [[b| |] a']; try reflexivity.
    destruct (b =? NACK); [reflexivity|]. destruct (b =? CR); [reflexivity|]. apply IH.
  Qed.
  Lemma same_attempt n d : same (attempt dp n d) (attempt q n d).
  Proof.
    unfold attempt, send_command.
    repeat (apply same_next; [first [apply same_tolerate, same_wait|apply same_wait|apply same_simple; reflexivity]|]). apply same_tolerate, same_wait.
  Qed.
  Lemma same_attempts n d k : same (attempts dp n d k) (attempts q n d k).
  Proof.
    induction k as [|k IH]; intros a; cbn [attempts]; rewrite same_attempt; destruct (attempt q n d a) as [[[] a']|]; try reflexivity; apply IH.
  Qed.
  Lemma same_init n r : same (init_adapter dp n r) (init_adapter q n r).
  Proof.
    intros a. unfold init_adapter. destruct (speed_code r) as [d|]; [|reflexivity].
    apply same_next; [apply same_attempts|apply same_simple; reflexivity].
  Qed.
End Device.

Section Reopen.
  Variable reply : history -> list N -> option bool.
  Variable traffic : history -> list N -> list N.
  Notation q := (adapter_port reply traffic).
  Hypothesis silence : quiet traffic.
  Variable bitrate : option N.
  Variable d : N.
  Hypothesis code : speed_code bitrate = Some d.
  Hypothesis ready : forall h, (9 <= length h)%nat -> reply h [83; 48 + d] = Some true /\ reply h [79] = Some true.

  Lemma reopened a o k : (0 < k)%nat \/ o = false -> exists n limit, forall m lim, (n <= m)%nat -> (limit <= lim)%nat -> exists v a',
    retry_read (device_port q) device_close device_open lim bitrate m {| dv_adapter := a; dv_open := o; dv_down := k |} = Some (v, {| dv_adapter := a'; dv_open := true; dv_down := 0 |}) /\
    channel_after (ad_history a') = {| ch_speed := Some d; ch_open := true |}.
  Proof.
    intros K. destruct (init_runs reply traffic silence bitrate d [] [] code) as (e & b' & fails & (limit & R) & F & [(L & -> & last & A & E)|(L & -> & E & (g & G & B))]).
    2: { exfalso. destruct (ready g) as (X & Y); [cbn in G; lia|]. tauto. }
    assert (Ch : channel_after (ad_history b') = {| ch_speed := Some d; ch_open := true |}).
    { rewrite E. cbn [app]. apply (channel_accepted d (concat fails) last A). }
    exists (S k), limit. intros m lim M LM.
    revert m M a o K. induction k as [k IH] using lt_wf_ind. intros m M a o K. destruct m as [|m]; [lia|].
    cbn [retry_read].
    replace (p_read (device_port q) {| dv_adapter := a; dv_open := o; dv_down := k |}) with (Fault, {| dv_adapter := a; dv_open := o; dv_down := pred k |})
      by (destruct k; [destruct K as [K| ->]; [lia|reflexivity]|reflexivity]).
    unfold retry, device_close. cbn [dv_adapter dv_down]. destruct (pred k) as [|k'] eqn:PK.
    - cbn [device_open dv_down].
      rewrite same_init, R by exact LM. destruct b' as [h s]. cbn [ad_history] in Ch.
      destruct s as [|x s].
      + exists None, {| ad_history := h; ad_sent := [] |}. split; [destruct m; reflexivity|exact Ch].
      + exists (Some x), {| ad_history := h; ad_sent := s |}. split; [destruct m; reflexivity|exact Ch].
    - cbn [device_open dv_down dv_adapter dv_open]. apply IH; [lia|lia|]. now right.
  Qed.
End Reopen.
