(** The invariant of outstanding requests. *)
From Verif.Base Require Import Prelude Bits.
From Verif.Model Require Import Types Codec MsgId Frames TransferManager Sched Node.
From Verif.Spec Require Import NodeSpec.
From Verif.Proofs Require Import ManagerFacts SchedFacts NodeFacts.
Require Import Coq.Sorting.Sorted Coq.Sorting.Permutation.
Local Open Scope Z_scope.

(** ** Counting *)

Definition is_timeout (r : nat) (e : event nact) : bool :=
  match ev_act e with ATimeout r' _ => Nat.eqb r' r | _ => false end.
Definition pending (r : nat) (q : list (event nact)) : nat := length (filter (is_timeout r) q).

Lemma heappush_perm {A} (e : event A) q : Permutation (heappush e q) (e :: q).
Proof.
  induction q as [|x q IH]; cbn; auto. destruct (ev_ltb e x); auto.
  rewrite IH. apply perm_swap.
Qed.

Lemma filter_perm {A} (f : A -> bool) l l' : Permutation l l' -> Permutation (filter f l) (filter f l').
Proof.
  induction 1; cbn; auto.
  - destruct (f x); auto.
  - destruct (f x), (f y); auto. apply perm_swap.
  - eapply perm_trans; eauto.
Qed.

Lemma pending_push r e q : pending r (heappush e q) = (if is_timeout r e then S (pending r q) else pending r q).
Proof.
  unfold pending. rewrite (Permutation_length (filter_perm _ _ _ (heappush_perm e q))). cbn.
  destruct (is_timeout r e); reflexivity.
Qed.

Lemma pending_remove r a x b : pending r (a ++ x :: b) =
  (if is_timeout r x then S (pending r (a ++ b)) else pending r (a ++ b)).
Proof.
  unfold pending. rewrite !filter_app. cbn. destruct (is_timeout r x); cbn; rewrite !app_length; cbn; lia.
Qed.

Lemma pending_zero r q : pending r q = 0%nat <-> forall e k, In e q -> ev_act e <> ATimeout r k.
Proof.
  unfold pending. split.
  - intros H e k Hin E. assert (In e (filter (is_timeout r) q)).
    { apply filter_In. split; auto. unfold is_timeout. rewrite E. apply Nat.eqb_refl. }
    destruct (filter (is_timeout r) q); [auto|discriminate].
  - intros H. destruct (filter (is_timeout r) q) as [|e l] eqn:E; auto. exfalso.
    assert (In e (filter (is_timeout r) q)) as Hin by (rewrite E; cbn; auto).
    apply filter_In in Hin. destruct Hin as [Hin Ht]. unfold is_timeout in Ht.
    destruct (ev_act e) eqn:Ea; try discriminate. apply Nat.eqb_eq in Ht. subst. eapply H; eauto.
Qed.

Lemma responses_app r l1 l2 : responses r (l1 ++ l2) = (responses r l1 + responses r l2)%nat.
Proof. induction l1 as [|o l1 IH]; cbn; auto. destruct o; auto. destruct (Nat.eqb _ _); lia. Qed.
Lemma timeouts_app r l1 l2 : timeouts r (l1 ++ l2) = (timeouts r l1 + timeouts r l2)%nat.
Proof. induction l1 as [|o l1 IH]; cbn; auto. destruct o; auto. destruct (Nat.eqb _ _); lia. Qed.

(** ** Histories of requests *)

Definition matches (t : rx) (h : header) (tid : N) : Prop :=
  h_service (rx_header t) = true /\ h_request (rx_header t) = false /\
  h_source (rx_header t) = h_dest h /\ h_dest (rx_header t) = h_source h /\
  h_dtid (rx_header t) = h_dtid h /\ rx_tid t = tid.

Definition ok_nobs (l : list nobs) (o : nobs) : Prop :=
  match o with
  | ORequest r h tid dl =>
      (exists l0 sess fs, l = l0 ++ [OSend sess h tid fs None]) /\
      (forall h' tid' dl', ~ In (ORequest r h' tid' dl') l)
  | OResponse r t =>
      timeouts r l = 0%nat /\ exists h tid dl, In (ORequest r h tid dl) l /\ matches t h tid
  | OTimeout r now =>
      timeouts r l = 0%nat /\ responses r l = 0%nat /\
      exists h tid dl, In (ORequest r h tid dl) l /\ dl <= now
  | _ => True
  end.
Definition nlegal (l : list nobs) : Prop := forall l1 o l2, l = l1 ++ o :: l2 -> ok_nobs l1 o.

Lemma nlegal_snoc l o : nlegal l -> ok_nobs l o -> nlegal (l ++ [o]).
Proof.
  intros H Ho l1 o' l2 E. destruct l2 as [|x l2' _] using rev_ind.
  - apply app_inj_tail in E. destruct E as [<- <-]. exact Ho.
  - change (o' :: l2' ++ [x]) with ((o' :: l2') ++ [x]) in E. rewrite app_assoc in E.
    apply app_inj_tail in E. destruct E as [E _]. eapply H; eauto.
Qed.

Definition is_user (a : nact) : Prop := match a with ATask _ | AEvery _ _ => True | _ => False end.

Record G (q : list (event nact)) (sq : nat) (hold : list (nat * nat))
         (R : list (key * (header * N))) (C : list (key * (nat * nat))) (reqs : nat)
         (l : list nobs) : Prop := {
  g_sorted : StronglySorted ev_lt q;
  g_nodup : NoDup (map ev_seq q);
  g_seqs : Forall (fun e => (ev_seq e < sq)%nat) q;
  g_hold : forall h ev, dget Nat.eqb hold h = Some ev ->
    (ev < sq)%nat /\ forall e, In e q -> ev_seq e = ev -> is_user (ev_act e);
  g_ndR : NoDup (map fst R);
  g_ndC : NoDup (map fst C);
  g_same : forall k, dget key_eqb R k = None <-> dget key_eqb C k = None;
  g_ent : forall k r ev, dget key_eqb C k = Some (r, ev) ->
    (r < reqs)%nat /\ (ev < sq)%nat /\ timeouts r l = 0%nat /\
    (forall e k', In e q -> ev_act e = ATimeout r k' -> ev_seq e = ev /\ k' = k) /\
    (forall e, In e q -> ev_seq e = ev -> ev_act e = ATimeout r k) /\
    exists h tid dl, dget key_eqb R k = Some (h, tid) /\ In (ORequest r h tid dl) l;
  g_inj : forall k k' r ev ev', dget key_eqb C k = Some (r, ev) -> dget key_eqb C k' = Some (r, ev') -> k = k';
  g_ev : forall e r k, In e q -> ev_act e = ATimeout r k ->
    (r < reqs)%nat /\ exists h tid, In (ORequest r h tid (ev_time e)) l;
  g_one : forall r, (r < reqs)%nat ->
    responses r l = 0%nat /\ (timeouts r l + pending r q = 1)%nat \/
    (0 < responses r l)%nat /\ timeouts r l = 0%nat /\ pending r q = 0%nat;
  g_fresh : forall r, (reqs <= r)%nat -> responses r l = 0%nat /\ timeouts r l = 0%nat /\
    forall h tid dl, ~ In (ORequest r h tid dl) l;
  g_legal : nlegal l;
  g_status : exists e p, In e q /\ ev_act e = AStatus p
}.

(** Observations that say nothing about requests. *)
Definition neutral (o : nobs) : Prop :=
  match o with ORequest _ _ _ _ | OResponse _ _ | OTimeout _ _ => False | _ => True end.

Lemma neutral_counts r o : neutral o -> responses r [o] = 0%nat /\ timeouts r [o] = 0%nat.
Proof. destruct o; cbn; tauto. Qed.

Lemma G_neutral q sq hold R C reqs l o : neutral o -> G q sq hold R C reqs l ->
  G q sq hold R C reqs (l ++ [o]).
Proof.
  intros Ho I. destruct I.
  assert (Hr : forall r, responses r (l ++ [o]) = responses r l).
  { intros r. rewrite responses_app, (proj1 (neutral_counts r o Ho)). lia. }
  assert (Ht : forall r, timeouts r (l ++ [o]) = timeouts r l).
  { intros r. rewrite timeouts_app, (proj2 (neutral_counts r o Ho)). lia. }
  assert (Hin : forall r h tid dl, In (ORequest r h tid dl) (l ++ [o]) <-> In (ORequest r h tid dl) l).
  { intros r h tid dl. rewrite in_app_iff. cbn. split; auto. intros [?|[->|[]]]; auto. destruct Ho. }
  constructor; auto.
  - intros k r ev H. destruct (g_ent0 k r ev H) as (A & B & D & E & F & h & tid & dl & Hh & Hd).
    rewrite Ht. repeat (split; auto). exists h, tid, dl. rewrite Hin. auto.
  - intros e r k He Ha. destruct (g_ev0 e r k He Ha) as (A & h & tid & Hd). split; auto.
    exists h, tid. now rewrite Hin.
  - intros r Hlt. rewrite Hr, Ht. auto.
  - intros r Hle. rewrite Hr, Ht. destruct (g_fresh0 r Hle) as (A & B & D). repeat split; auto.
    intros h tid dl. rewrite Hin. auto.
  - apply nlegal_snoc; auto. destruct o; cbn in *; tauto.
Qed.

(** Entering an event that is not a timeout; [hold'] may name it. *)
Lemma G_enter q sq hold hold' R C reqs l t p a : (forall r k, a <> ATimeout r k) ->
  (forall h ev, dget Nat.eqb hold' h = Some ev -> ev = sq /\ is_user a \/ dget Nat.eqb hold h = Some ev) ->
  G q sq hold R C reqs l -> G (heappush (Event t p sq a) q) (S sq) hold' R C reqs l.
Proof.
  intros Ha Hh I. destruct I.
  assert (Hlt : Forall (fun x => ev_seq x <> sq) q).
  { eapply Forall_impl; [|exact g_seqs0]. cbn. lia. }
  constructor; auto.
  - apply heappush_sorted; auto.
  - apply heappush_seqs; auto.
  - apply Forall_forall. intros x Hx. apply heappush_in in Hx. destruct Hx as [->|Hx]; [cbn; lia|].
    rewrite Forall_forall in g_seqs0. specialize (g_seqs0 x Hx). lia.
  - intros h ev Hev. destruct (Hh h ev Hev) as [[-> Hu]|Hev'].
    + split; [lia|]. intros e He Es. apply heappush_in in He. destruct He as [->|He]; auto.
      rewrite Forall_forall in Hlt. now apply Hlt in He.
    + destruct (g_hold0 h ev Hev') as [A B]. split; [lia|]. intros e He Es. apply heappush_in in He.
      destruct He as [->|He]; [cbn in Es; lia|auto].
  - intros k r ev H. destruct (g_ent0 k r ev H) as (A & B & D & E & F & X).
    repeat (split; [auto; lia|]). split; [|split; auto].
    + intros e k' He Ea. apply heappush_in in He. destruct He as [->|He]; [now apply Ha in Ea|auto].
    + intros e He Es. apply heappush_in in He. destruct He as [->|He]; [cbn in Es; lia|auto].
  - intros e r k He Ea. apply heappush_in in He. destruct He as [->|He]; [now apply Ha in Ea|eauto].
  - intros r Hr. rewrite pending_push.
    replace (is_timeout r (Event t p sq a)) with false; auto.
    unfold is_timeout. cbn. destruct a; auto. exfalso; eapply Ha; eauto.
  - destruct g_status0 as (e & p' & He & Ee). exists e, p'. split; auto. apply heappush_in. auto.
Qed.

(** Removing an event of user code. *)
Lemma G_remove a x b sq hold R C reqs l : is_user (ev_act x) ->
  G (a ++ x :: b) sq hold R C reqs l -> G (a ++ b) sq hold R C reqs l.
Proof.
  intros Hx I. destruct I.
  assert (Hin : forall e, In e (a ++ b) -> In e (a ++ x :: b)).
  { intros e. rewrite !in_app_iff. cbn. tauto. }
  constructor; auto.
  - eapply StronglySorted_remove; eauto.
  - rewrite map_app in *. cbn in g_nodup0. eapply NoDup_remove_1; eauto.
  - rewrite Forall_app in *. destruct g_seqs0 as [A B]. inversion B; auto.
  - intros h ev Hev. destruct (g_hold0 h ev Hev) as [A B]. auto.
  - intros k r ev H. destruct (g_ent0 k r ev H) as (A & B & D & E & F & X).
    repeat (split; auto).
  - intros e r k He Ea. eauto.
  - intros r Hr. specialize (g_one0 r Hr). rewrite pending_remove in g_one0.
    replace (is_timeout r x) with false in g_one0; auto. unfold is_timeout.
    destruct (ev_act x); auto; destruct Hx.
  - destruct g_status0 as (e & p & He & Ee). exists e, p. split; auto.
    rewrite in_app_iff in *. cbn in He. destruct He as [He|[->|He]]; auto. rewrite Ee in Hx. destruct Hx.
Qed.

(** Registering a request. *)
Lemma G_request q sq hold R C reqs l k h tid t :
  G q sq hold R C reqs l -> (exists l0 sess fs, l = l0 ++ [OSend sess h tid fs None]) ->
  G (heappush (Event t 1 sq (ATimeout reqs k)) q) (S sq) hold
    (dset key_eqb R k (h, tid)) (dset key_eqb C k (reqs, sq)) (S reqs)
    (l ++ [ORequest reqs h tid t]).
Proof.
  intros I Hl. destruct I.
  set (o := ORequest reqs h tid t).
  assert (Hr : forall r, responses r (l ++ [o]) = responses r l).
  { intros r. rewrite responses_app. cbn. lia. }
  assert (Ht : forall r, timeouts r (l ++ [o]) = timeouts r l).
  { intros r. rewrite timeouts_app. cbn. lia. }
  assert (Hin : forall r h tid dl, In (ORequest r h tid dl) l -> In (ORequest r h tid dl) (l ++ [o])).
  { intros. apply in_or_app. auto. }
  assert (Hlt : Forall (fun x => ev_seq x <> sq) q).
  { eapply Forall_impl; [|exact g_seqs0]. cbn. lia. }
  pose proof Hlt as Hlt'. rewrite Forall_forall in Hlt'.
  assert (Hnew : forall e k', In e q -> ev_act e <> ATimeout reqs k').
  { intros e k' He Ea. destruct (g_ev0 e reqs k' He Ea) as [A _]. lia. }
  constructor; auto.
  - apply heappush_sorted; auto.
  - apply heappush_seqs; auto.
  - apply Forall_forall. intros x Hx. apply heappush_in in Hx. destruct Hx as [->|Hx]; [cbn; lia|].
    rewrite Forall_forall in g_seqs0. specialize (g_seqs0 x Hx). lia.
  - intros h0 ev Hev. destruct (g_hold0 h0 ev Hev) as [A B]. split; [lia|].
    intros e He Es. apply heappush_in in He. destruct He as [->|He]; [cbn in Es; lia|auto].
  - apply dset_nodup; auto. apply key_eqb_spec.
  - apply dset_nodup; auto. apply key_eqb_spec.
  - intros k'. destruct (key_eqb k k') eqn:Ek.
    + apply key_eqb_spec in Ek. subst k'. rewrite !(dget_dset_same _ key_eqb_spec). split; discriminate.
    + assert (k <> k') by (intros ->; rewrite (proj2 (key_eqb_spec k' k') eq_refl) in Ek; discriminate).
      rewrite !(dget_dset_other _ key_eqb_spec) by auto. auto.
  - intros k' r ev H. destruct (key_eqb k k') eqn:Ek.
    + apply key_eqb_spec in Ek. subst k'. rewrite (dget_dset_same _ key_eqb_spec) in H.
      rewrite (dget_dset_same _ key_eqb_spec). injection H as <- <-. destruct (g_fresh0 reqs) as (A & B & D); [lia|].
      split; [lia|]. split; [lia|]. split; [rewrite Ht; auto|]. split; [|split].
      * intros e k' He Ea. apply heappush_in in He. destruct He as [->|He]; [|now apply Hnew in Ea].
        cbn in Ea. injection Ea as <-. auto.
      * intros e He Es. apply heappush_in in He. destruct He as [->|He]; auto. now apply Hlt' in He.
      * exists h, tid, t. split; auto. apply in_or_app. cbn. auto.
    + assert (k <> k') by (intros ->; rewrite (proj2 (key_eqb_spec k' k') eq_refl) in Ek; discriminate).
      rewrite (dget_dset_other _ key_eqb_spec) in H by auto. rewrite (dget_dset_other _ key_eqb_spec) by auto.
      destruct (g_ent0 k' r ev H) as (A & B & D & E & F & h0 & tid0 & dl & X & Y).
      split; [lia|]. split; [lia|]. split; [rewrite Ht; auto|]. split; [|split].
      * intros e k'' He Ea. apply heappush_in in He. destruct He as [->|He]; eauto.
        cbn in Ea. injection Ea as <- <-. lia.
      * intros e He Es. apply heappush_in in He. destruct He as [->|He]; auto. cbn in Es. lia.
      * exists h0, tid0, dl. auto.
  - intros k1 k2 r ev ev' H1 H2.
    destruct (key_eqb k k1) eqn:E1, (key_eqb k k2) eqn:E2.
    + apply key_eqb_spec in E1, E2. congruence.
    + apply key_eqb_spec in E1. subst k1.
      assert (k <> k2) by (intros ->; rewrite (proj2 (key_eqb_spec k2 k2) eq_refl) in E2; discriminate).
      rewrite (dget_dset_same _ key_eqb_spec) in H1. rewrite (dget_dset_other _ key_eqb_spec) in H2 by auto.
      injection H1 as <- <-. apply g_ent0 in H2. lia.
    + apply key_eqb_spec in E2. subst k2.
      assert (k <> k1) by (intros ->; rewrite (proj2 (key_eqb_spec k1 k1) eq_refl) in E1; discriminate).
      rewrite (dget_dset_same _ key_eqb_spec) in H2. rewrite (dget_dset_other _ key_eqb_spec) in H1 by auto.
      injection H2 as <- <-. apply g_ent0 in H1. lia.
    + assert (k <> k1) by (intros ->; rewrite (proj2 (key_eqb_spec k1 k1) eq_refl) in E1; discriminate).
      assert (k <> k2) by (intros ->; rewrite (proj2 (key_eqb_spec k2 k2) eq_refl) in E2; discriminate).
      rewrite (dget_dset_other _ key_eqb_spec) in H1 by auto.
      rewrite (dget_dset_other _ key_eqb_spec) in H2 by auto. eauto.
  - intros e r k' He Ea. apply heappush_in in He. destruct He as [->|He].
    + cbn in *. injection Ea as <- <-. split; [lia|]. exists h, tid. apply in_or_app. cbn. auto.
    + destruct (g_ev0 e r k' He Ea) as (A & h0 & tid0 & B). split; [lia|]. eauto.
  - intros r Hlt1. rewrite Hr, Ht, pending_push. unfold is_timeout. cbn.
    destruct (Nat.eqb_spec reqs r) as [<-|Hne].
    + destruct (g_fresh0 reqs) as (A & B & _); [lia|]. left. split; auto.
      replace (pending reqs q) with 0%nat; [lia|]. symmetry. apply pending_zero. exact Hnew.
    + apply g_one0. lia.
  - intros r Hle. destruct (g_fresh0 r) as (A & B & D); [lia|]. rewrite Hr, Ht.
    repeat split; auto. intros h0 tid0 dl Hi. apply in_app_or in Hi. destruct Hi as [Hi|[Hi|[]]].
    + eapply D; eauto.
    + unfold o in Hi. injection Hi as Hi _ _ _. lia.
  - apply nlegal_snoc; auto. split; auto. destruct (g_fresh0 reqs) as (A & B & D); [lia|]. auto.
  - destruct g_status0 as (e & p' & He & Ee). exists e, p'. split; auto. apply heappush_in. auto.
Qed.

(** Running a timeout: the event at the head of the queue. *)
Lemma G_timeout e q sq hold R C reqs l r k now : ev_act e = ATimeout r k -> ev_time e <= now ->
  G (e :: q) sq hold R C reqs l ->
  G q sq hold (ddel key_eqb R k) (ddel key_eqb C k) reqs (l ++ [OTimeout r now]).
Proof.
  intros Ea Hdue I. destruct I.
  assert (Hin0 : In e (e :: q)) by (cbn; auto).
  destruct (g_ev0 e r k Hin0 Ea) as (Hr & h & tid & Hreq).
  assert (Hp : pending r (e :: q) = S (pending r q)).
  { unfold pending. cbn. unfold is_timeout at 1. rewrite Ea, Nat.eqb_refl. reflexivity. }
  assert (Hone : responses r l = 0%nat /\ timeouts r l = 0%nat /\ pending r q = 0%nat).
  { destruct (g_one0 r Hr) as [[A B]|(A & B & D)]; rewrite Hp in *; lia. }
  destruct Hone as (Hr0 & Ht0 & Hp0).
  assert (HR : forall r', responses r' (l ++ [OTimeout r now]) = responses r' l).
  { intros r'. rewrite responses_app. cbn. lia. }
  assert (HT : forall r', timeouts r' (l ++ [OTimeout r now]) =
                          (timeouts r' l + if Nat.eqb r r' then 1 else 0)%nat).
  { intros r'. rewrite timeouts_app. cbn. destruct (Nat.eqb r r'); reflexivity. }
  assert (Hsub : forall x, In x q -> In x (e :: q)) by (cbn; auto).
  inversion g_nodup0 as [|? ? Nd1 Nd2]; subst. inversion g_seqs0 as [|? ? Sq1 Sq2]; subst.
  inversion g_sorted0 as [|? ? So1 So2]; subst.
  assert (Hdel : forall k' v, dget key_eqb (ddel key_eqb C k) k' = Some v -> k' <> k /\ dget key_eqb C k' = Some v).
  { intros k' v H. destruct (key_eqb k k') eqn:Ek.
    - apply key_eqb_spec in Ek. subst k'. rewrite (dget_ddel_same _ key_eqb_spec) in H by auto. discriminate.
    - assert (k <> k') by (intros ->; rewrite (proj2 (key_eqb_spec k' k') eq_refl) in Ek; discriminate).
      rewrite (dget_ddel_other _ key_eqb_spec) in H by auto. auto. }
  constructor; auto.
  - intros h0 ev Hev. destruct (g_hold0 h0 ev Hev) as [A B]. auto.
  - apply ddel_nodup; auto.
  - apply ddel_nodup; auto.
  - intros k'. destruct (key_eqb k k') eqn:Ek.
    + apply key_eqb_spec in Ek. subst k'. rewrite !(dget_ddel_same _ key_eqb_spec) by auto. tauto.
    + assert (k <> k') by (intros ->; rewrite (proj2 (key_eqb_spec k' k') eq_refl) in Ek; discriminate).
      rewrite !(dget_ddel_other _ key_eqb_spec) by auto. auto.
  - intros k' r' ev H. apply Hdel in H. destruct H as [Hne H].
    destruct (g_ent0 k' r' ev H) as (A & B & D & E & F & h0 & tid0 & dl & X & Y).
    assert (r' <> r).
    { intros ->. destruct (E e k Hin0 Ea) as [_ E']. congruence. }
    split; auto. split; auto. split.
    { rewrite HT. destruct (Nat.eqb_spec r r'); [congruence|lia]. }
    split; [intros; eapply E; eauto|]. split; [auto|].
    exists h0, tid0, dl. rewrite (dget_ddel_other _ key_eqb_spec) by auto. split; auto.
    apply in_or_app. auto.
  - intros k1 k2 r' ev ev' H1 H2. apply Hdel in H1, H2. destruct H1, H2. eauto.
  - intros x r' k' Hx Hxa. destruct (g_ev0 x r' k' (Hsub _ Hx) Hxa) as (A & h0 & tid0 & B). split; auto.
    exists h0, tid0. apply in_or_app. auto.
  - intros r' Hlt. rewrite HR, HT. destruct (Nat.eqb_spec r r') as [<-|Hne].
    + left. lia.
    + specialize (g_one0 r' Hlt). replace (pending r' (e :: q)) with (pending r' q) in g_one0; [lia|].
      unfold pending. cbn. replace (is_timeout r' e) with false; auto. unfold is_timeout. rewrite Ea.
      destruct (Nat.eqb_spec r r'); [congruence|reflexivity].
  - intros r' Hle. rewrite HR, HT. destruct (g_fresh0 r' Hle) as (A & B & D).
    destruct (Nat.eqb_spec r r'); [lia|]. repeat split; auto; [lia|].
    intros h0 tid0 dl Hi. apply in_app_or in Hi. destruct Hi as [Hi|[Hi|[]]]; [eapply D; eauto|discriminate].
  - apply nlegal_snoc; auto. cbn. split; auto. split; auto. exists h, tid, (ev_time e). auto.
  - destruct g_status0 as (x & p & [<-|Hx] & Ex); [congruence|eauto].
Qed.

(** Giving a response to the callback of an outstanding request. *)
Lemma G_response q q' sq hold R C reqs l r k ev t :
  dget key_eqb C k = Some (r, ev) ->
  (cancel ev q = Some q' \/ cancel ev q = None /\ q' = q) ->
  (forall h tid, dget key_eqb R k = Some (h, tid) -> matches t h tid) ->
  G q sq hold R C reqs l ->
  G q' sq hold R C reqs (l ++ [OResponse r t]) /\ pending r q' = 0%nat.
Proof.
  intros Hc Hq Hm I. destruct I.
  destruct (g_ent0 k r ev Hc) as (Hr & Hev & Ht0 & Hact & Hact2 & h & tid & dl & HR & Hreq).
  assert (Hp0 : pending r q' = 0%nat).
  { apply pending_zero. intros e k' He Ea. destruct Hq as [Hq|[Hq ->]].
    - destruct (cancel_some _ _ _ g_nodup0 Hq) as [Hs _]. apply Hs in He. destruct He as [He Hne].
      destruct (Hact e k' He Ea). contradiction.
    - destruct (Hact e k' He Ea) as [Es _]. apply cancel_none in Hq. apply Hq. rewrite <- Es.
      now apply in_map. }
  split; auto.
  assert (Hsub : forall x, In x q' -> In x q).
  { destruct Hq as [Hq|[_ ->]]; auto. intros x Hx.
    destruct (cancel_some _ _ _ g_nodup0 Hq) as [Hs _]. now apply Hs in Hx. }
  assert (Hpend : forall r', r' <> r -> pending r' q' = pending r' q).
  { intros r' Hne. destruct Hq as [Hq|[_ ->]]; auto.
    destruct (cancel_sub _ _ _ Hq) as (a & x & b & -> & -> & Ex). rewrite pending_remove.
    rewrite <- Ex in Hact2. specialize (Hact2 x). unfold is_timeout. rewrite Hact2; auto.
    - destruct (Nat.eqb_spec r r'); [congruence|reflexivity].
    - apply in_or_app. cbn. auto. }
  assert (Hrr : forall r', responses r' (l ++ [OResponse r t]) =
                          (responses r' l + if Nat.eqb r r' then 1 else 0)%nat).
  { intros r'. rewrite responses_app. cbn. destruct (Nat.eqb r r'); reflexivity. }
  assert (HT : forall r', timeouts r' (l ++ [OResponse r t]) = timeouts r' l).
  { intros r'. rewrite timeouts_app. cbn. lia. }
  constructor; auto.
  - destruct Hq as [Hq|[_ ->]]; auto. destruct (cancel_sub _ _ _ Hq) as (a & x & b & -> & -> & Ex).
    eapply StronglySorted_remove; eauto.
  - destruct Hq as [Hq|[_ ->]]; auto. destruct (cancel_sub _ _ _ Hq) as (a & x & b & -> & -> & Ex).
    rewrite map_app in *. cbn in g_nodup0. eapply NoDup_remove_1; eauto.
  - rewrite Forall_forall in *. auto.
  - intros h0 ev0 Hev0. destruct (g_hold0 h0 ev0 Hev0) as [A B]. auto.
  - intros k' r' ev' H. destruct (g_ent0 k' r' ev' H) as (A & B & D & E & F & h0 & tid0 & dl0 & X & Y).
    split; auto. split; auto. split; [rewrite HT; auto|]. split; [intros; eapply E; eauto|].
    split; [auto|]. exists h0, tid0, dl0. split; auto. apply in_or_app. auto.
  - intros x r' k' Hx Hxa. destruct (g_ev0 x r' k' (Hsub _ Hx) Hxa) as (A & h0 & tid0 & B). split; auto.
    exists h0, tid0. apply in_or_app. auto.
  - intros r' Hlt. rewrite Hrr, HT. destruct (Nat.eqb_spec r r') as [<-|Hne].
    + right. lia.
    + rewrite Hpend by auto. specialize (g_one0 r' Hlt). lia.
  - intros r' Hle. rewrite Hrr, HT. destruct (g_fresh0 r' Hle) as (A & B & D).
    destruct (Nat.eqb_spec r r'); [lia|]. repeat split; auto; [lia|].
    intros h0 tid0 dl0 Hi. apply in_app_or in Hi. destruct Hi as [Hi|[Hi|[]]]; [eapply D; eauto|discriminate].
  - apply nlegal_snoc; auto. cbn. split; auto. exists h, tid, dl. auto.
  - destruct g_status0 as (x & p & Hx & Ex). exists x, p. split; auto.
    destruct Hq as [Hq|[_ ->]]; auto.
    destruct (cancel_some _ _ _ g_nodup0 Hq) as [Hs _]. apply Hs. split; auto.
    intros Es. apply Hact2 in Es; auto. congruence.
Qed.

(** Forgetting a request. *)
Lemma G_forget q sq hold R C reqs l k : G q sq hold R C reqs l ->
  G q sq hold (ddel key_eqb R k) (ddel key_eqb C k) reqs l.
Proof.
  intros I. destruct I.
  assert (Hdel : forall k' v, dget key_eqb (ddel key_eqb C k) k' = Some v -> k' <> k /\ dget key_eqb C k' = Some v).
  { intros k' v H. destruct (key_eqb k k') eqn:Ek.
    - apply key_eqb_spec in Ek. subst k'. rewrite (dget_ddel_same _ key_eqb_spec) in H by auto. discriminate.
    - assert (k <> k') by (intros ->; rewrite (proj2 (key_eqb_spec k' k') eq_refl) in Ek; discriminate).
      rewrite (dget_ddel_other _ key_eqb_spec) in H by auto. auto. }
  constructor; auto.
  - apply ddel_nodup; auto.
  - apply ddel_nodup; auto.
  - intros k'. destruct (key_eqb k k') eqn:Ek.
    + apply key_eqb_spec in Ek. subst k'. rewrite !(dget_ddel_same _ key_eqb_spec) by auto. tauto.
    + assert (k <> k') by (intros ->; rewrite (proj2 (key_eqb_spec k' k') eq_refl) in Ek; discriminate).
      rewrite !(dget_ddel_other _ key_eqb_spec) by auto. auto.
  - intros k' r' ev H. apply Hdel in H. destruct H as [Hne H].
    destruct (g_ent0 k' r' ev H) as (A & B & D & E & F & h0 & tid0 & dl & X & Y).
    split; auto. split; auto. split; auto. split; [intros; eapply E; eauto|]. split; auto.
    exists h0, tid0, dl. rewrite (dget_ddel_other _ key_eqb_spec) by auto. auto.
  - intros k1 k2 r' ev ev' H1 H2. apply Hdel in H1, H2. destruct H1, H2. eauto.
Qed.

(** Popping an event that is not a timeout and entering another. *)
Lemma G_pop_user e q sq hold R C reqs l : is_user (ev_act e) ->
  G (e :: q) sq hold R C reqs l -> G q sq hold R C reqs l.
Proof. intros H I. exact (G_remove [] e q sq hold R C reqs l H I). Qed.
