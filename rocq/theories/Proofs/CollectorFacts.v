(** Facts about the message collector. *)
From Verif.Base Require Import Prelude.
From Verif.Model Require Import Collector.
From Verif.Spec Require Import CollectorSpec.
Local Open Scope Z_scope.

Lemma Neqb_spec a b : (a =? b)%N = true <-> a = b.
Proof. apply N.eqb_eq. Qed.

Section Facts.
  Variable timeout : option Z.
  Notation run := (collected_by timeout).
  Notation look s k := (dget N.eqb s k).

  Definition expired (ts now : Z) : bool := match timeout with Some t => ts + t <? now | None => false end.
  Definition keep (v : option (Z * N)) (now : Z) : option (Z * N) :=
    match v with Some (ts, m) => if expired ts now then None else v | None => None end.

  Lemma getitem_view s k now : NoDup (map fst s) ->
    let s' := fst (getitem timeout s k now) in
    NoDup (map fst s') /\ look s' k = keep (look s k) now /\ (forall j, j <> k -> look s' j = look s j) /\
    snd (getitem timeout s k now) = match keep (look s k) now with Some (_, m) => Ok m | None => Err KeyError end.
  Proof.
    intros Hd. unfold getitem, keep, expired. cbn [fst snd].
    destruct timeout as [t|]; [|destruct (look s k) as [[ts m]|] eqn:E; rewrite ?E; auto].
    destruct (look s k) as [[ts m]|] eqn:E; [|rewrite ?E; auto].
    destruct (ts + t <? now); [|rewrite ?E; auto].
    rewrite (dget_ddel_same _ Neqb_spec) by exact Hd. repeat split; [apply ddel_nodup; exact Hd|].
    intros j Hj. apply (dget_ddel_other _ Neqb_spec). congruence.
  Qed.

  Lemma iterate_view s now : NoDup (map fst s) ->
    let s' := fst (iterate timeout s now) in
    NoDup (map fst s') /\ forall k, look s' k = keep (look s k) (now k).
  Proof.
    intros Hd. cbn [iterate fst].
    assert (H : forall l s, NoDup (map fst s) -> NoDup l ->
              let s' := fold_left (fun s k => fst (getitem timeout s k (now k))) l s in
              NoDup (map fst s') /\
              forall k, look s' k = if in_dec N.eq_dec k l then keep (look s k) (now k) else look s k).
    { clear. induction l as [|x l IH]; intros s Hd Hl; [cbn; auto|]. cbn [fold_left].
      inversion Hl as [|? ? Hx Hl']; subst. destruct (getitem_view s x (now x) Hd) as (Hd' & Hs & Ho & _).
      destruct (IH _ Hd' Hl') as (H1 & H2). cbn zeta in *. split; [exact H1|]. intros k. rewrite H2.
      destruct (in_dec N.eq_dec k l) as [Hi|Hn]; destruct (in_dec N.eq_dec k (x :: l)) as [Hi'|Hn'].
      - rewrite Ho by (intros ->; contradiction). reflexivity.
      - exfalso. apply Hn'. right. exact Hi.
      - destruct Hi' as [->|Hi']; [exact Hs|contradiction].
      - apply Ho. intros ->. apply Hn'. left. reflexivity. }
    destruct (H (map fst s) s Hd Hd) as (H1 & H2). cbn zeta in *. split; [exact H1|]. intros k. rewrite H2.
    destruct (in_dec N.eq_dec k (map fst s)) as [Hi|Hn]; [reflexivity|].
    apply (dget_None_keys _ Neqb_spec) in Hn. rewrite Hn. reflexivity.
  Qed.

  Lemma last_snoc {A} (l : list A) x d : last (l ++ [x]) d = x.
  Proof. apply last_last. Qed.

  (** Most recent message with a key, if any. *)
  Definition newest (k : N) (evs : list cevent) : option (Z * N) :=
    match rev (received k evs) with x :: _ => Some x | [] => None end.

  Lemma run_view evs k : NoDup (map fst (run evs)) /\
    (forall v, look (run evs) k = Some v -> newest k evs = Some v) /\
    (look (run evs) k = None -> forall ts m, newest k evs = Some (ts, m) ->
       exists r, In r (readings_of k evs) /\ expired ts r = true).
  Proof.
    induction evs as [|e evs (IHd & IHs & IHn)] using rev_ind.
    { cbn. repeat split; [constructor|discriminate|discriminate]. }
    unfold collected_by. rewrite fold_left_app. cbn [fold_left]. fold (run evs).
    assert (Er : readings_of k (evs ++ [e]) = readings_of k evs ++ readings_of k [e]) by apply flat_map_app.
    assert (Ec : received k (evs ++ [e]) = received k evs ++ received k [e]) by apply flat_map_app.
    assert (Hin : forall r, In r (readings_of k evs) -> In r (readings_of k (evs ++ [e]))).
    { intros r Hr. rewrite Er. apply in_or_app. auto. }
    assert (Hkeep : forall now s', received k [e] = [] -> In now (readings_of k [e]) ->
      look s' k = keep (look (run evs) k) now ->
      (forall v, look s' k = Some v -> newest k (evs ++ [e]) = Some v) /\
      (look s' k = None -> forall ts m, newest k (evs ++ [e]) = Some (ts, m) ->
         exists r, In r (readings_of k (evs ++ [e])) /\ expired ts r = true)).
    { intros now s' En Hi El. unfold newest in *. rewrite Ec, En, app_nil_r. unfold keep in El.
      destruct (look (run evs) k) as [[ts m]|] eqn:E.
      - destruct (expired ts now) eqn:Ee; rewrite El.
        + split; [discriminate|]. intros _ ts' m' Hn. rewrite (IHs _ eq_refl) in Hn. injection Hn as <- <-.
          exists now. split; [rewrite Er; apply in_or_app; auto|exact Ee].
        + split; [exact IHs|discriminate].
      - rewrite El. split; [discriminate|]. intros _ ts m Hn. destruct (IHn eq_refl ts m Hn) as (r & Hr & Hx). eauto. }
    destruct e as [j ts m|j now|now]; cbn [cstep].
    - split; [apply (dset_nodup _ Neqb_spec); exact IHd|]. unfold newest, receive in *. rewrite Ec. cbn.
      destruct (j =? k)%N eqn:E.
      + apply N.eqb_eq in E as ->. rewrite (dget_dset_same _ Neqb_spec), rev_app_distr. cbn. split; [auto|discriminate].
      + rewrite (dget_dset_other _ Neqb_spec) by lia. rewrite app_nil_r. split; [exact IHs|].
        intros H ts' m' Hn. destruct (IHn H ts' m' Hn) as (r & Hr & Hx). eauto.
    - destruct (getitem_view (run evs) j now IHd) as (Hd & Hs & Ho & _). split; [exact Hd|].
      destruct (N.eq_dec k j) as [->|Hj].
      + apply (Hkeep now); [reflexivity|cbn; rewrite N.eqb_refl; left; reflexivity|exact Hs].
      + rewrite Ho by exact Hj. unfold newest in *. rewrite Ec. cbn. rewrite app_nil_r. split; [exact IHs|].
        intros H ts' m' Hn. destruct (IHn H ts' m' Hn) as (r & Hr & Hx). eauto.
    - destruct (iterate_view (run evs) now IHd) as (Hd & Hs). split; [exact Hd|].
      apply (Hkeep (now k)); [reflexivity|left; reflexivity|apply Hs].
  Qed.

  Theorem collector_get k evs now : clock_to k evs now ->
    match newest k evs with
    | Some (ts, m) => (in_time timeout ts now -> snd (getitem timeout (run evs) k now) = Ok m) /\
                      (~ in_time timeout ts now -> snd (getitem timeout (run evs) k now) = Err KeyError)
    | None => snd (getitem timeout (run evs) k now) = Err KeyError
    end.
  Proof.
    intros Hc. destruct (run_view evs k) as (Hd & Hs & Hn).
    destruct (getitem_view (run evs) k now Hd) as (_ & _ & _ & Hr). rewrite Hr. clear Hr.
    destruct (look (run evs) k) as [[ts m]|] eqn:E.
    - rewrite (Hs _ eq_refl). cbn. unfold expired, in_time. destruct timeout as [t|]; [|split; [reflexivity|tauto]].
      destruct (ts + t <? now) eqn:Ee; split; auto; lia.
    - cbn. destruct (newest k evs) as [[ts m]|] eqn:En; [|reflexivity]. split; [|reflexivity].
      intros Ht. exfalso. destruct (Hn eq_refl ts m eq_refl) as (r & Hr & Hx). specialize (Hc r Hr).
      unfold expired, in_time in *. destruct timeout; [lia|discriminate].
  Qed.

  Theorem collector_iter k evs now : 
    In k (snd (iterate timeout (run evs) now)) <-> exists m, snd (getitem timeout (run evs) k (now k)) = Ok m.
  Proof.
    destruct (run_view evs k) as (Hd & _).
    destruct (getitem_view (run evs) k (now k) Hd) as (_ & _ & _ & Hr). rewrite Hr.
    destruct (iterate_view (run evs) now Hd) as (Hd' & Hs). change (snd (iterate timeout (run evs) now))
      with (map fst (fst (iterate timeout (run evs) now))).
    set (s' := fst (iterate timeout (run evs) now)) in *. specialize (Hs k).
    split.
    - intros Hin. destruct (look s' k) as [v|] eqn:E.
      + rewrite <- Hs. destruct v. eauto.
      + apply (dget_None_keys _ Neqb_spec) in E. contradiction.
    - intros (m & Hm). destruct (keep (look (run evs) k) (now k)) as [v|]; [|discriminate].
      apply (dget_In _ Neqb_spec) in Hs. apply in_map_iff. eexists. split; [|exact Hs]. reflexivity.
  Qed.

  Theorem collector_iter_once evs now :
    NoDup (snd (iterate timeout (run evs) now)) /\
    size (fst (iterate timeout (run evs) now)) = length (snd (iterate timeout (run evs) now)).
  Proof.
    destruct (run_view evs 0%N) as (Hd & _). destruct (iterate_view (run evs) now Hd) as (Hd' & _).
    split; [exact Hd'|]. unfold size. cbn [iterate snd fst]. rewrite map_length. reflexivity.
  Qed.
End Facts.
