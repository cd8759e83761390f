(** Facts about the gap detector. *)
From Verif.Base Require Import Prelude.
From Verif.Model Require Import FixGap.
From Verif.Spec Require Import FixGapSpec.
Local Open Scope Z_scope.

Lemma steps_snoc l a x : steps (l ++ [a; x]) = steps (l ++ [a]) ++ [x - a].
Proof.
  induction l as [|b [|c l] IH]; [reflexivity|reflexivity|].
  cbn [app] in *. change (steps (b :: c :: l ++ [a; x])) with ((c - b) :: steps (c :: l ++ [a; x])).
  change (steps (b :: c :: l ++ [a])) with ((c - b) :: steps (c :: l ++ [a])). rewrite IH. reflexivity.
Qed.
Lemma times_snoc n ms m : times_of n (ms ++ [m]) = times_of n ms ++ (if N.eqb (f_node m) n then [f_ts m] else []).
Proof. unfold times_of. rewrite filter_app, map_app. cbn [filter]. destruct (N.eqb (f_node m) n); reflexivity. Qed.

Section Watch.
  Variable F : Type.
  Variable fifth : F.
  Variable smooth : F -> Z -> F.
  Variable is_zero : F -> bool.
  Variable only : option N.
  Variable threshold : Z.
  Notation handle := (handle_fix2 F fifth smooth is_zero only threshold).
  Notation due := (lines_due fifth smooth threshold).

  Definition knows (past : list fix2) (s : gaps F) : Prop := forall n,
    match times_of n past with
    | [] => dget N.eqb (g_last s) n = None
    | ts => dget N.eqb (g_last s) n = Some (last ts 0) /\ dget N.eqb (g_low s) n = Some (average fifth smooth ts)
    end.
  Lemma handle_wanted s m : handle s m = if wanted only m then handle_fix2 F fifth smooth is_zero None threshold s m else s.
  Proof. unfold handle_fix2, wanted. destruct only as [n|]; [|reflexivity]. destruct (N.eqb (f_node m) n); reflexivity. Qed.
  Lemma watch_wanted ms : forall s, fold_left handle ms s = fold_left (handle_fix2 F fifth smooth is_zero None threshold) (filter (wanted only) ms) s.
  Proof.
    induction ms as [|m ms IH]; intros s; [reflexivity|]. cbn [fold_left filter]. rewrite handle_wanted, IH.
    destruct (wanted only m); reflexivity.
  Qed.
  (** One fix: what is printed, unless the average is 0. *)
  Lemma one_fix past s m : knows past s ->
    knows (past ++ [m]) (handle_fix2 F fifth smooth is_zero None threshold s m) /\
    g_out (handle_fix2 F fifth smooth is_zero None threshold s m) =
      g_out s ++ filter (fun l => negb (is_zero (snd l))) (due past [m]).
  Proof.
    intros K. unfold handle_fix2. cbn [lines_due]. rewrite app_nil_r. pose proof (K (f_node m)) as Km.
    destruct (times_of (f_node m) past) as [|t ts] eqn:Et.
    - rewrite Km. split; [|cbn; rewrite app_nil_r; reflexivity]. intros n. cbn [g_last g_low]. rewrite times_snoc. specialize (K n).
      destruct (N.eqb_spec (f_node m) n) as [<-|Hn].
      + rewrite Et. cbn [app]. rewrite !dget_dset_same by exact N.eqb_eq. split; reflexivity.
      + rewrite !dget_dset_other by (exact N.eqb_eq || exact Hn). rewrite app_nil_r. exact K.
    - destruct Km as (Kl & Kf). rewrite Kl, Kf. set (tss := t :: ts) in *. cbn zeta.
      assert (Hav : average fifth smooth (tss ++ [f_ts m]) = smooth (average fifth smooth tss) (f_ts m - last tss 0)).
      { unfold average. destruct (exists_last (l := tss) ltac:(discriminate)) as (l0 & a & ->).
        rewrite <- app_assoc. cbn [app]. rewrite steps_snoc, last_last, fold_left_app. reflexivity. }
      split.
      + intros n. cbn [g_last g_low]. rewrite times_snoc. specialize (K n).
        destruct (N.eqb_spec (f_node m) n) as [<-|Hn].
        * rewrite Et, !dget_dset_same by exact N.eqb_eq. rewrite <- Hav. subst tss. cbn [app].
          split; [|reflexivity]. f_equal. symmetry. apply (last_last (t :: ts)).
        * rewrite !dget_dset_other by (exact N.eqb_eq || exact Hn). rewrite app_nil_r. exact K.
      + cbn [g_out]. change (Nat.eqb (length tss) 0) with false. cbn [negb andb]. destruct (threshold <? _); [|rewrite app_nil_r; reflexivity].
        rewrite Hav. cbn [filter snd]. destruct (is_zero _); cbn [negb]; [rewrite app_nil_r|]; reflexivity.
  Qed.
  Lemma watched ms : forall past s, knows past s ->
    g_out (fold_left (handle_fix2 F fifth smooth is_zero None threshold) ms s) = g_out s ++ filter (fun l => negb (is_zero (snd l))) (due past ms).
  Proof.
    induction ms as [|m ms IH]; intros past s K; [cbn; rewrite app_nil_r; reflexivity|].
    destruct (one_fix past s m K) as (K' & O). cbn [fold_left]. rewrite (IH _ _ K'), O, <- app_assoc. f_equal.
    rewrite <- filter_app. f_equal. cbn [lines_due]. rewrite app_nil_r. reflexivity.
  Qed.
  Lemma watch_lines ms :
    g_out (watch F fifth smooth is_zero only threshold ms) = filter (fun l => negb (is_zero (snd l))) (due [] (filter (wanted only) ms)).
  Proof. unfold watch. rewrite watch_wanted, (watched _ [] (Gaps [] [] [])); [reflexivity|]. intros n. reflexivity. Qed.

  Lemma steps_app l l' : exists r, steps (l ++ l') = steps l ++ r.
  Proof.
    induction l as [|a [|b l] IH]; [eexists; reflexivity|destruct l' as [|c l']; [exists []; reflexivity|eexists; reflexivity]|].
    destruct IH as (r & E). exists r. change (steps ((a :: b :: l) ++ l')) with ((b - a) :: steps ((b :: l) ++ l')). rewrite E. reflexivity.
  Qed.
  Lemma due_positive (pos : F -> Prop) : pos fifth -> (forall f d, pos f -> 0 <= d -> pos (smooth f d)) ->
    forall ms past, steady (past ++ ms) -> Forall (fun l => pos (snd l)) (due past ms).
  Proof.
    intros P0 Ps. induction ms as [|m ms IH]; intros past H; [constructor|]. cbn [lines_due].
    replace (past ++ m :: ms) with ((past ++ [m]) ++ ms) in H by (rewrite <- app_assoc; reflexivity).
    apply Forall_app. split; [|apply IH, H]. destruct (_ && _)%bool; [|constructor]. constructor; [|constructor]. cbn [snd].
    specialize (H (f_node m)). unfold times_of in H. rewrite filter_app, map_app in H. fold (times_of (f_node m) (past ++ [m])) in H.
    rewrite times_snoc, N.eqb_refl in H.
    match type of H with Forall _ (steps (?a ++ ?b)) => destruct (steps_app a b) as (r & E) end. rewrite E in H.
    apply Forall_app in H as (H & _). unfold average. revert H. generalize (steps (times_of (f_node m) past ++ [f_ts m])). intros l.
    revert P0. generalize fifth. induction l as [|d l IHl]; intros f Pf Hl; [exact Pf|].
    apply Forall_cons_iff in Hl as (Hd & Hl). cbn [fold_left]. apply IHl; [apply Ps; assumption|exact Hl].
  Qed.
  Lemma watch_all ms : positive_average fifth smooth is_zero -> steady (filter (wanted only) ms) ->
    g_out (watch F fifth smooth is_zero only threshold ms) = due [] (filter (wanted only) ms).
  Proof.
    intros (pos & P0 & Ps & Pz) H. rewrite watch_lines. pose proof (due_positive pos P0 Ps _ [] H) as P.
    induction P as [|l ls Hl _ IH]; [reflexivity|]. cbn [filter]. rewrite (Pz _ Hl). cbn [negb]. rewrite IH. reflexivity.
  Qed.
End Watch.
