(** Waiting for nodes. *)
From Verif.Base Require Import Prelude.
From Verif.Model Require Import Monitor Waiting.
From Verif.Spec Require Import WaitSpec.

Section Waiting.
  Variables timeout min_retry : Z.
  Notation mstep := (mstep timeout min_retry).
  Notation steps := (fold_left mstep).
  Notation wait := (wait timeout min_retry).

  (** It returns as soon as enough nodes are listed. *)
  Lemma wait_first least : forall spins s s' rest, wait least s spins = Some (s', rest) <->
    exists pre, spins = pre ++ rest /\ s' = steps (concat pre) s /\ least <= length (all_node_id s') /\
      forall p q, pre = p ++ q -> q <> [] -> length (all_node_id (steps (concat p) s)) < least.
  Proof.
    induction spins as [|evs spins IH]; intros s s' rest; cbn [Waiting.wait].
    - destruct (Nat.ltb (length (all_node_id s)) least) eqn:L; split.
      + discriminate.
      + intros (pre & E & -> & G & _). destruct pre; [|discriminate]. cbn in G. lia.
      + intros E. assert (s' = s /\ rest = []) as (-> & ->) by (split; congruence). exists []. cbn. repeat split; [lia|].
        intros p q X Q. symmetry in X. apply app_eq_nil in X as (_ & ->). contradiction.
      + intros (pre & E & -> & _ & _). symmetry in E. apply app_eq_nil in E as (-> & ->). reflexivity.
    - destruct (Nat.ltb (length (all_node_id s)) least) eqn:L.
      + rewrite IH. split.
        * intros (pre & -> & -> & G & F). exists (evs :: pre). cbn [concat app]. rewrite fold_left_app. repeat split; [exact G|].
          intros [|x p] q X Q; [cbn; lia|]. cbn [app] in X. injection X as <- X. cbn [concat]. rewrite fold_left_app. apply (F p q X Q).
        * intros ([|x pre] & E & -> & G & F); [cbn in G; lia|]. cbn [app] in E. injection E as <- E. exists pre.
          cbn [concat] in *. rewrite fold_left_app in *. repeat split; [exact E|exact G|].
          intros p q X Q. specialize (F (evs :: p) q). cbn [app concat] in F. rewrite fold_left_app in F. apply F; [congruence|exact Q].
      + split.
        * intros E. assert (s' = s /\ rest = evs :: spins) as (-> & ->) by (split; congruence). exists []. cbn. repeat split; [lia|].
          intros p q X Q. symmetry in X. apply app_eq_nil in X as (_ & ->). contradiction.
        * intros (pre & E & -> & G & F). destruct pre as [|x pre]; [cbn in *; congruence|].
          specialize (F [] (x :: pre) eq_refl ltac:(discriminate)). cbn in F. lia.
  Qed.
  Lemma wait_returns least : forall spins s pre post, spins = pre ++ post -> least <= length (all_node_id (steps (concat pre) s)) ->
    exists r, wait least s spins = Some r.
  Proof.
    induction spins as [|evs spins IH]; intros s pre post E G; cbn [Waiting.wait].
    - symmetry in E. apply app_eq_nil in E as (-> & ->). cbn in G. replace (Nat.ltb (length (all_node_id s)) least) with false by lia. eauto.
    - destruct (Nat.ltb (length (all_node_id s)) least) eqn:L; [|eauto].
      destruct pre as [|x pre]; [cbn in G; lia|]. cbn [app] in E. injection E as <- E. cbn [concat] in G. rewrite fold_left_app in G. eauto.
  Qed.

  (** *** What is listed *)
  Definition lists (s : monitor) (n : N) : Prop := exists e, dget N.eqb (mo_registry s) n = Some e.

  Lemma dget_in (l : list (N * entry)) n e : dget N.eqb l n = Some e -> In n (map fst l).
  Proof.
    induction l as [|[m x] l IH]; cbn [dget map fst]; [discriminate|]. destruct (N.eqb_spec n m); [left; congruence|right; auto].
  Qed.
  Lemma lists_in s n : lists s n -> In n (all_node_id s).
  Proof. intros (e & E). exact (dget_in _ _ _ E). Qed.

  Section Inv.
    Variable P : N -> Prop.
    Definition inv (s : monitor) : Prop := NoDup (map fst (mo_registry s)) /\ Forall P (map fst (mo_registry s)).

    Lemma dset_inv (l : list (N * entry)) n e : P n -> NoDup (map fst l) -> Forall P (map fst l) ->
      NoDup (map fst (dset N.eqb l n e)) /\ Forall P (map fst (dset N.eqb l n e)) /\
      (forall m, In m (map fst (dset N.eqb l n e)) -> m = n \/ In m (map fst l)).
    Proof.
      intros Pn. induction l as [|[k x] l IH]; cbn [dset map fst]; intros ND F.
      - split; [constructor; [intros []|constructor]|]. split; [auto|]. intros m [<-|[]]. auto.
      - apply Forall_cons_iff in F as (Pk & F). pose proof (proj1 (NoDup_cons_iff _ _) ND) as (NI & ND'). destruct (N.eqb_spec n k) as [->|D]; cbn [map fst].
        + split; [exact ND|]. split; [constructor; assumption|]. intros m I. right. exact I.
        + destruct (IH ND' F) as (A & B & C). split; [|split].
          * constructor; [|exact A]. intros I. destruct (C k I); [congruence|contradiction].
          * constructor; assumption.
          * intros m [<-|I]; [right; left; reflexivity|]. destruct (C m I); [left; assumption|right; right; assumption].
    Qed.
    Lemma ddel_inv (l : list (N * entry)) n : NoDup (map fst l) -> Forall P (map fst l) ->
      NoDup (map fst (ddel N.eqb l n)) /\ Forall P (map fst (ddel N.eqb l n)) /\ (forall m, In m (map fst (ddel N.eqb l n)) -> In m (map fst l)).
    Proof.
      induction l as [|[k x] l IH]; cbn [ddel map fst]; intros ND F; [auto|].
      apply Forall_cons_iff in F as (Pk & F). pose proof (proj1 (NoDup_cons_iff _ _) ND) as (NI & ND').
      destruct (IH ND' F) as (A & B & C). destruct (N.eqb_spec n k) as [->|D]; cbn [map fst].
      - split; [exact ND'|]. split; [exact F|]. intros m I. right. exact I.
      - split; [constructor; [|exact A]|split; [constructor; assumption|]].
        + intros I. apply NI, C, I.
        + intros m [<-|I]; [left; reflexivity|right; apply C, I].
    Qed.
    Lemma inv_say s o : inv s -> inv (say s o).
    Proof. exact (fun x => x). Qed.
    Lemma inv_put s n e : P n -> inv s -> inv (put s n e).
    Proof. intros Pn (A & B). destruct (dset_inv (mo_registry s) n e Pn A B) as (X & Y & _). split; assumption. Qed.
    Lemma inv_drop s n : inv s -> inv (drop s n).
    Proof. intros (A & B). destruct (ddel_inv (mo_registry s) n A B) as (X & Y & _). split; assumption. Qed.
    Lemma inv_get s n now : inv s -> inv (fst (get timeout s n now)).
    Proof.
      intros V. unfold get. destruct (dget N.eqb (mo_registry s) n) as [e|]; [|exact V]. destruct (stale timeout e now); [|exact V].
      apply inv_drop, inv_say, V.
    Qed.
    Lemma inv_step s e : (forall m, came_from m e -> P m) -> inv s -> inv (mstep s e).
    Proof.
      intros H V. unfold Monitor.mstep. apply (inv_say _ (MIn e)) in V. revert V. generalize (say s (MIn e)). clear s. intros s V.
      destruct e as [n up ts now an|n up i ts now text|n ts now|now|n now]; cbn [came_from] in H; try specialize (H n eq_refl).
      - unfold on_status. pose proof (inv_get s n now V) as W. destruct (get timeout s n now) as [s1 found]. cbn [fst] in W.
        apply (inv_put _ n (update_from_status (match found with Some e => e | None => new_entry end) up ts) H) in W.
        assert (inv (match found with Some _ => put s1 n (update_from_status (match found with Some e => e | None => new_entry end) up ts)
                     | None => say (put s1 n (update_from_status (match found with Some e => e | None => new_entry end) up ts)) (MNew n) end)) as W2
          by (destruct found; exact W).
        cbv zeta. match goal with |- inv (if ?c then _ else _) => destruct c end; [|exact W2].
        match goal with |- inv (match ?c with O => _ | S _ => _ end) => destruct c end; apply inv_say, inv_put; assumption.
      - unfold on_info. pose proof (inv_get s n now V) as W. destruct (get timeout s n now) as [s1 found]. cbn [fst] in W. cbv zeta.
        destruct text; apply inv_say, inv_put; assumption.
      - unfold on_request. pose proof (inv_get s n now V) as W. destruct (get timeout s n now) as [s1 found]. cbn [fst] in W. cbv zeta.
        apply inv_say, inv_put; assumption.
      - unfold remove_stale. generalize (mo_registry s). intros l. revert s V. induction l as [|r l IH]; intros s V; cbn [fold_left]; [exact V|].
        apply IH. destruct (stale timeout (snd r) (now (fst r))); [apply inv_say, inv_drop, V|exact V].
      - apply inv_get, V.
    Qed.
    Lemma inv_steps evs : forall s, (forall e m, In e evs -> came_from m e -> P m) -> inv s -> inv (steps evs s).
    Proof.
      induction evs as [|e evs IH]; intros s H V; cbn [fold_left]; [exact V|]. apply IH.
      - intros e' m I. apply H. right. exact I.
      - apply inv_step; [|exact V]. intros m. apply H. left. reflexivity.
    Qed.
  End Inv.

  (** With one other node on the bus the ESC examples wait for ever. *)
  Lemma esc_alone n spins : Forall (Forall (only n)) spins -> esc_wait timeout min_retry spins = None.
  Proof.
    intros F. destruct (esc_wait timeout min_retry spins) as [[s' rest]|] eqn:E; [|reflexivity]. exfalso. unfold esc_wait in E.
    apply wait_first in E as (pre & -> & -> & G & _). apply Forall_app in F as (F & _).
    assert (inv (eq n) (steps (concat pre) (Monitor [] []))) as (ND & A).
    { apply inv_steps; [|split; constructor]. intros e m I C. apply in_concat in I as (evs & I1 & I2).
      symmetry. exact (proj1 (Forall_forall _ _) (proj1 (Forall_forall _ _) F evs I1) e I2 m C). }
    unfold all_node_id in G. destruct (map fst (mo_registry (steps (concat pre) (Monitor [] [])))) as [|x [|y l]]; cbn [length] in G; try lia.
    apply Forall_cons_iff in A as (-> & A). apply Forall_cons_iff in A as (-> & _). inversion ND as [|? ? NI _]. apply NI. left. reflexivity.
  Qed.
  (** All that are listed have been heard, and none is listed twice. *)
  Lemma wait_listed least spins s' rest : wait least (Monitor [] []) spins = Some (s', rest) ->
    NoDup (all_node_id s') /\ forall m, In m (all_node_id s') -> exists evs e, In evs spins /\ In e evs /\ came_from m e.
  Proof.
    intros E. apply wait_first in E as (pre & -> & -> & _ & _).
    destruct (inv_steps (fun m => exists evs e, In evs (pre ++ rest) /\ In e evs /\ came_from m e) (concat pre) (Monitor [] [])) as (ND & A).
    - intros e m I C. apply in_concat in I as (evs & I1 & I2). exists evs, e. split; [apply in_app_iff; left; exact I1|]. auto.
    - split; constructor.
    - split; [exact ND|]. exact (proj1 (Forall_forall _ _) A).
  Qed.

  (** *** One that is heard is listed *)
  Lemma keq_spec : forall a b, N.eqb a b = true <-> a = b.
  Proof. apply N.eqb_eq. Qed.
  Lemma lists_put s n e m : lists s m \/ m = n -> lists (put s n e) m.
  Proof.
    intros H. destruct (N.eq_dec n m) as [->|D]; unfold lists, put; cbn [mo_registry].
    - exists e. apply (dget_dset_same N.eqb keq_spec).
    - destruct H as [(x & H)|H]; [|congruence]. exists x. rewrite (dget_dset_other N.eqb keq_spec) by exact D. exact H.
  Qed.
  Lemma lists_get s n now m : n <> m -> lists s m -> lists (fst (get timeout s n now)) m.
  Proof.
    intros D (x & H). unfold get. destruct (dget N.eqb (mo_registry s) n) as [e|]; [|exists x; exact H]. destruct (stale timeout e now); [|exists x; exact H].
    exists x. cbn [fst drop say mo_registry]. rewrite (dget_ddel_other N.eqb keq_spec) by exact D. exact H.
  Qed.
  Lemma lists_status s n up ts now an m : lists s m /\ n <> m \/ m = n -> lists (mstep s (MStatus n up ts now an)) m.
  Proof.
    intros H. unfold Monitor.mstep, on_status. set (s0 := say s (MIn (MStatus n up ts now an))).
    assert (lists s0 m /\ n <> m \/ m = n) as H0 by exact H. clearbody s0.
    assert (lists (fst (get timeout s0 n now)) m \/ m = n) as H1.
    { destruct H0 as [(L & D)|E]; [left; apply lists_get; assumption|right; exact E]. }
    destruct (get timeout s0 n now) as [s1 found]. cbn [fst] in H1. cbv zeta.
    set (e := update_from_status _ up ts). pose proof (lists_put s1 n e m H1) as H2.
    assert (lists (match found with Some _ => put s1 n e | None => say (put s1 n e) (MNew n) end) m) as H3 by (destruct found; exact H2).
    match goal with |- lists (if ?c then _ else _) _ => destruct c end; [|exact H3].
    match goal with |- lists (match ?c with O => _ | S _ => _ end) _ => destruct c end;
      match goal with |- lists (say ?x _) _ => change (lists x m) end; apply lists_put; left; exact H3.
  Qed.
  Lemma listed_two l (n m : N) : In n l -> In m l -> n <> m -> 2 <= length l.
  Proof.
    destruct l as [|x [|y l]]; cbn [In length]; [contradiction| |lia]. intros [->|[]] [->|[]] D. contradiction.
  Qed.
  Lemma other_returns pre evs n up ts now an post :
    exists r, other_wait timeout min_retry (pre ++ (evs ++ [MStatus n up ts now an]) :: post) = Some r.
  Proof.
    apply (wait_returns 1 _ _ (pre ++ [evs ++ [MStatus n up ts now an]]) post); [rewrite <- app_assoc; reflexivity|].
    rewrite concat_app. cbn [concat]. rewrite app_nil_r, app_assoc, fold_left_app. cbn [fold_left].
    match goal with |- context [mstep ?s ?e] => pose proof (lists_in _ n (lists_status s n up ts now an n (or_intror eq_refl))) as I end.
    destruct (all_node_id _); [destruct I|cbn; lia].
  Qed.
  Lemma esc_returns pre evs n up ts now an n' up' ts' now' an' post : n <> n' ->
    exists r, esc_wait timeout min_retry (pre ++ (evs ++ [MStatus n up ts now an; MStatus n' up' ts' now' an']) :: post) = Some r.
  Proof.
    intros D. apply (wait_returns 2 _ _ (pre ++ [evs ++ [MStatus n up ts now an; MStatus n' up' ts' now' an']]) post); [rewrite <- app_assoc; reflexivity|].
    rewrite concat_app. cbn [concat]. rewrite app_nil_r, app_assoc, fold_left_app. cbn [fold_left].
    match goal with |- context [mstep (mstep ?s _) _] => pose proof (lists_status s n up ts now an n (or_intror eq_refl)) as L end.
    match goal with |- context [mstep (mstep ?s ?e) _] =>
      pose proof (lists_in _ _ (lists_status (mstep s e) n' up' ts' now' an' n (or_introl (conj L (not_eq_sym D))))) as I1;
      pose proof (lists_in _ _ (lists_status (mstep s e) n' up' ts' now' an' n' (or_intror eq_refl))) as I2 end.
    exact (listed_two _ n n' I1 I2 D).
  Qed.
  (** The node that the firmware example updates. *)
  Lemma updated spins s' rest : other_wait timeout min_retry spins = Some (s', rest) ->
    (exists n evs e, target (-1) s' = Some (Z.of_N n) /\ In evs spins /\ In e evs /\ came_from n e) /\
    forall given, given <> (-1)%Z -> target given s' = Some given.
  Proof.
    intros E. split.
    - pose proof (wait_listed 1 spins s' rest E) as (_ & H). unfold other_wait in E. apply wait_first in E as (pre & _ & _ & G & _).
      unfold target. cbn [Z.eqb Pos.eqb]. destruct (all_node_id s') as [|n l]; [cbn in G; lia|].
      destruct (H n (or_introl eq_refl)) as (evs & e & A & B & C). exists n, evs, e. auto.
    - intros given D. unfold target. destruct (Z.eqb_spec given (-1)); [contradiction|reflexivity].
  Qed.
End Waiting.
