(** [find_all] of the node monitor. *)
From Verif.Base Require Import Prelude.
From Verif.Model Require Import Monitor FindAll.
From Verif.Spec Require Import ReassemblySpec.
From Verif.Proofs Require Import MonitorFacts.

Section FindAll.
  Variables timeout min_retry : Z.
  Variable p : N -> entry -> bool.
  Notation from := (find_from timeout min_retry p).
  Notation during s between k := (fold_left (mstep timeout min_retry) (concat (firstn k between)) s).

  (** Taken at once. *)
  Lemma from_all s : NoDup (map fst (mo_registry s)) -> forall a b, mo_registry s = a ++ b ->
    from (map fst (mo_registry s)) (map fst b) s [] = (s, filter (fun r => p (fst r) (snd r)) b, Finished).
  Proof.
    intros W a b. revert a. induction b as [|[n e] b IH]; intros a E; cbn [map find_from]; rewrite map_length, Nat.eqb_refl; cbn [negb].
    - destruct (list_eq_dec _ _ _) as [_|N]; [reflexivity|contradiction].
    - destruct (list_eq_dec _ _ _) as [_|N]; [|contradiction]. cbn [fst].
      rewrite (dget_nodup_In N.eqb N.eqb_eq _ n e W) by (rewrite E; apply in_or_app; right; left; reflexivity).
      cbn [filter fst snd hd tl fold_left]. rewrite (IH (a ++ [(n, e)])) by (rewrite <- app_assoc; exact E). destruct (p n e); reflexivity.
  Qed.

  (** What is yielded. *)
  Lemma from_yields todo : forall keys s between s' l r, from keys todo s between = (s', l, r) ->
    subsequence (map fst l) todo /\
    forall n e, In (n, e) l -> p n e = true /\ exists k, (k < length l)%nat /\ dget N.eqb (mo_registry (during s between k)) n = Some e.
  Proof.
    induction todo as [|n todo IH]; intros keys s between s' l r H; cbn [find_from] in H.
    - assert (l = []) as -> by (destruct (negb _); [congruence|]; destruct (list_eq_dec _ _ _); congruence).
      split; [constructor|intros ? ? []].
    - destruct (negb _); [injection H as <- <- <-; split; [constructor|intros ? ? []]|].
      destruct (list_eq_dec _ _ _) as [Same|Same]; [|injection H as <- <- <-; split; [constructor|intros ? ? []]].
      destruct (dget N.eqb (mo_registry s) n) as [e|] eqn:D; [|injection H as <- <- <-; split; [constructor|intros ? ? []]].
      destruct (p n e) eqn:P.
      + destruct (from keys todo _ (tl between)) as [[s1 l1] r1] eqn:E. injection H as <- <- <-. destruct (IH _ _ _ _ _ _ E) as (Q & Y). split.
        * cbn [map fst]. apply sub_take. exact Q.
        * intros m f [I|I]; [injection I as <- <-; split; [exact P|]; exists O; split; [cbn; lia|exact D]|].
          destruct (Y m f I) as (A & k & K & G). split; [exact A|]. exists (S k). split; [cbn; lia|].
          destruct between as [|ev between]; cbn [hd tl firstn concat fold_left] in *; [rewrite firstn_nil in G; exact G|]. rewrite fold_left_app. exact G.
      + destruct (IH _ _ _ _ _ _ H) as (Q & Y). split; [|exact Y]. apply sub_skip. exact Q.
  Qed.

  (** If it comes to the end, nothing is missing. *)
  Lemma from_done todo : forall keys s between s' l, from keys todo s between = (s', l, Finished) ->
    forall n, In n todo -> (forall k e, dget N.eqb (mo_registry (during s between k)) n = Some e -> p n e = true) -> In n (map fst l).
  Proof.
    induction todo as [|m todo IH]; intros keys s between s' l H n I A; [destruct I|]. cbn [find_from] in H.
    destruct (negb _); [discriminate|]. destruct (list_eq_dec _ _ _) as [Same|Same]; [|discriminate].
    destruct (dget N.eqb (mo_registry s) m) as [e0|] eqn:D; [|discriminate]. destruct (p m e0) eqn:P.
    - destruct (from keys todo _ (tl between)) as [[s1 l1] r1] eqn:E. injection H as <- <- ->. destruct I as [->|I]; [left; reflexivity|right].
      apply (IH _ _ _ _ _ E n I). intros k e G. apply (A (S k) e). destruct between as [|ev between]; cbn [hd tl firstn concat fold_left] in *; [rewrite firstn_nil in G; exact G|].
      rewrite fold_left_app. exact G.
    - destruct I as [->|I]; [rewrite (A O e0 D) in P; discriminate|]. exact (IH _ _ _ _ _ H n I A).
  Qed.

  (** If the list has another length when it goes on, it raises. *)
  Lemma from_raises keys todo s between : length (mo_registry s) <> length keys -> from keys todo s between = (s, [], Raised RuntimeError).
  Proof. intros H. destruct todo; cbn [find_from]; (destruct (Nat.eqb_spec (length (mo_registry s)) (length keys)); [contradiction|reflexivity]). Qed.
End FindAll.

Lemma all_found timeout min_retry p evs : let s := monitored timeout min_retry evs in
  find_all timeout min_retry p s [] = (s, filter (fun r => p (fst r) (snd r)) (mo_registry s), Finished).
Proof. cbv zeta. apply (from_all timeout min_retry p _ (run_wf timeout min_retry evs) []). reflexivity. Qed.
Lemma discovered_all timeout min_retry evs : let s := monitored timeout min_retry evs in
  are_all_discovered timeout min_retry s = true <-> forall n e, In (n, e) (mo_registry s) -> en_info e <> None \/ en_retries e = O.
Proof.
  cbv zeta. unfold are_all_discovered. rewrite all_found. set (l := mo_registry _). rewrite Nat.eqb_eq. split.
  - intros H n e I. apply length_zero_iff_nil in H. assert (X : ~ In (n, e) (filter (fun r => negb (discovered (snd r))) l)) by (rewrite H; intros []).
    rewrite filter_In in X. cbn [snd] in X. unfold discovered in X. destruct (en_info e); [left; discriminate|right].
    destruct (Nat.leb_spec (en_retries e) 0); [lia|]. exfalso. apply X. split; [exact I|reflexivity].
  - intros H. apply length_zero_iff_nil. destruct (filter _ l) as [|[n e] r] eqn:E; [reflexivity|].
    assert (X : In (n, e) (filter (fun r => negb (discovered (snd r))) l)) by (rewrite E; left; reflexivity).
    apply filter_In in X as (I & D). cbn [snd] in D. unfold discovered in D. destruct (H n e I) as [N|R]; [destruct (en_info e); [discriminate|contradiction]|].
    destruct (en_info e); [discriminate|]. rewrite R in D. discriminate.
Qed.
