From Verif.Base Require Import Prelude.
From Verif.Model Require Import MsgId Frames TransferManager.
From Verif.Spec Require Import FrameSpec ReassemblySpec.
From Verif.Proofs Require Import FrameFacts ReassemblyFacts.

Lemma key_eqb_spec a b : key_eqb a b = true <-> a = b.
Proof.
  destruct a as [a1 [a2|]], b as [b1 [b2|]]; unfold key_eqb; cbn [fst snd];
    rewrite ?andb_true_iff, ?N.eqb_eq; split; intros H;
    try (destruct H; congruence); injection H; intros; subst; auto; discriminate.
Qed.

Lemma has_key_true k f : has_key k f = true <-> transfer_key f = k.
Proof. unfold has_key. rewrite key_eqb_spec. split; congruence. Qed.

(** ** One key at a time *)

(** The frames collected so far for one key, and what a frame of that key
    completes. *)
Definition step (p : option (list frame)) (f : frame) : option (list frame) * option (list frame) :=
  let p' := if start_of_transfer f then Some [f]
            else match p with Some l => Some (l ++ [f]) | None => None end in
  if end_of_transfer f then (None, p') else (p', None).

Fixpoint steps (p : option (list frame)) (fs : list frame)
    : option (list frame) * list (option (list frame)) :=
  match fs with
  | [] => (p, [])
  | f :: fs' =>
      let '(p1, o) := step p f in
      let '(p2, os) := steps p1 fs' in (p2, o :: os)
  end.

Lemma receive_step m f now : NoDup (map fst (m_active m)) ->
  let '(m', o) := receive_frame m f now in
  NoDup (map fst (m_active m')) /\
  step (dget key_eqb (m_active m) (transfer_key f)) f =
    (dget key_eqb (m_active m') (transfer_key f), o) /\
  forall k, k <> transfer_key f -> dget key_eqb (m_active m') k = dget key_eqb (m_active m) k.
Proof.
  intros Hnd. unfold receive_frame, step, dmem. set (k := transfer_key f).
  destruct (start_of_transfer f) eqn:Es.
  - rewrite orb_true_r. rewrite (dget_dset_same key_eqb key_eqb_spec). cbn [app].
    destruct (end_of_transfer f) eqn:Ee; cbn [m_active].
    + split; [apply ddel_nodup, dset_nodup, dset_nodup; exact Hnd || apply key_eqb_spec|].
      split.
      * rewrite (dget_ddel_same key_eqb key_eqb_spec); [reflexivity|].
        repeat (apply dset_nodup; [apply key_eqb_spec|]). exact Hnd.
      * intros k' Hk'. rewrite (dget_ddel_other key_eqb key_eqb_spec) by congruence.
        rewrite !(dget_dset_other key_eqb key_eqb_spec) by congruence. reflexivity.
    + split; [repeat (apply dset_nodup; [apply key_eqb_spec|]); exact Hnd|].
      split; [rewrite (dget_dset_same key_eqb key_eqb_spec); reflexivity|].
      intros k' Hk'. rewrite !(dget_dset_other key_eqb key_eqb_spec) by congruence. reflexivity.
  - rewrite orb_false_r. destruct (dget key_eqb (m_active m) k) as [l|] eqn:Ed.
    + destruct (end_of_transfer f) eqn:Ee; cbn [m_active].
      * split; [apply ddel_nodup, dset_nodup; exact Hnd || apply key_eqb_spec|]. split.
        -- rewrite (dget_ddel_same key_eqb key_eqb_spec); [reflexivity|].
           apply dset_nodup; [apply key_eqb_spec|exact Hnd].
        -- intros k' Hk'. rewrite (dget_ddel_other key_eqb key_eqb_spec) by congruence.
           rewrite !(dget_dset_other key_eqb key_eqb_spec) by congruence. reflexivity.
      * split; [apply dset_nodup; [apply key_eqb_spec|exact Hnd]|]. split.
        -- rewrite (dget_dset_same key_eqb key_eqb_spec). reflexivity.
        -- intros k' Hk'. rewrite (dget_dset_other key_eqb key_eqb_spec) by congruence. reflexivity.
    + split; [exact Hnd|]. split; [|auto]. rewrite Ed. destruct (end_of_transfer f); reflexivity.
Qed.

Lemma feed_steps k : forall arr m, NoDup (map fst (m_active m)) ->
  steps (dget key_eqb (m_active m) k) (frames_with k arr) =
  (dget key_eqb (m_active (fst (feed m arr))) k,
   map snd (filter (fun p => has_key k (fst p)) (snd (feed m arr)))).
Proof.
  induction arr as [|[f now] arr IH]; intros m Hnd; [reflexivity|].
  cbn [feed]. pose proof (receive_step m f now Hnd) as Hr.
  destruct (receive_frame m f now) as [m1 o]. destruct Hr as (Hnd1 & Hs & Ho).
  specialize (IH m1 Hnd1). destruct (feed m1 arr) as [m2 os].
  unfold frames_with in *. cbn [map fst snd filter] in *.
  destruct (has_key k f) eqn:Ek; cbn [filter fst].
  - apply has_key_true in Ek. subst k. cbn [steps]. rewrite Hs.
    rewrite IH. reflexivity.
  - rewrite <- IH. rewrite Ho; [reflexivity|].
    intros ->. rewrite (proj2 (has_key_true _ f)) in Ek by reflexivity. discriminate.
Qed.

Lemma delivered_steps k arr : delivered k arr = somes (snd (steps None (frames_with k arr))).
Proof.
  unfold delivered. pose proof (feed_steps k arr new_manager (NoDup_nil _)) as H.
  cbn [new_manager m_active dget] in H. rewrite H. reflexivity.
Qed.

Lemma steps_app p a b :
  steps p (a ++ b) =
  let '(p1, o1) := steps p a in let '(p2, o2) := steps p1 b in (p2, o1 ++ o2).
Proof.
  revert p. induction a as [|f a IH]; intros p; cbn [steps app].
  - destruct (steps p b). reflexivity.
  - destruct (step p f) as [p1 o]. rewrite IH. destruct (steps p1 a) as [p2 o2].
    destruct (steps p2 b). reflexivity.
Qed.

Lemma somes_app {A} (a b : list (option A)) : somes (a ++ b) = somes a ++ somes b.
Proof. induction a as [|[x|] a IH]; cbn; [reflexivity| |exact IH]. rewrite IH. reflexivity. Qed.

(** ** What is pending *)
Definition open_transfer (fs : list frame) : Prop :=
  exists s rest, fs = s :: rest /\ start_of_transfer s = true /\
    Forall (fun f => start_of_transfer f = false) rest /\
    Forall (fun f => end_of_transfer f = false) fs.

Lemma pending_spec fs : forall K,
  fst (steps None K) = Some fs <-> open_transfer fs /\ exists pre, K = pre ++ fs.
Proof.
  intros K. revert fs. induction K as [|f K IH] using rev_ind; intros fs.
  - cbn. split; [discriminate|]. intros [(s & rest & -> & _) [pre H]].
    destruct pre; discriminate.
  - rewrite steps_app. destruct (steps None K) as [p os] eqn:Ep. cbn [steps fst] in *.
    destruct (step p f) as [p1 o] eqn:Es. cbn [fst]. unfold step in Es.
    assert (Hlast : forall pre fs', fs' <> [] -> K ++ [f] = pre ++ fs' ->
       exists fs0, fs' = fs0 ++ [f] /\ K = pre ++ fs0).
    { intros pre fs' Hne E. destruct (exists_last Hne) as (fs0 & x & ->).
      rewrite app_assoc in E. apply app_inj_tail in E as [-> ->]. eauto. }
    destruct (end_of_transfer f) eqn:Ee.
    + injection Es as <- <-. split; [discriminate|].
      intros [(s & rest & -> & _ & _ & Hall) [pre E]]. exfalso.
      destruct (Hlast pre (s :: rest)) as (fs0 & E0 & _); [discriminate|exact E|].
      rewrite E0 in Hall. apply Forall_app in Hall as [_ Hf]. inversion Hf; congruence.
    + injection Es as <- <-. destruct (start_of_transfer f) eqn:Est.
      * split.
        -- intros [= <-]. split; [|exists K; reflexivity].
           exists f, []. repeat split; auto.
        -- intros [(s & rest & -> & Hs & Hr & Hall) [pre E]].
           destruct (Hlast pre (s :: rest)) as (fs0 & E0 & _); [discriminate|exact E|].
           destruct fs0 as [|s' fs0]; cbn in E0; injection E0 as -> ->; [reflexivity|].
           apply Forall_app in Hr as [_ Hr]. inversion Hr; congruence.
      * split.
        -- destruct p as [l|]; [|discriminate]. intros [= <-].
           destruct (proj1 (IH l) eq_refl) as [(s & rest & -> & Hs & Hr & Hall) [pre ->]].
           split; [|exists pre; rewrite app_assoc; reflexivity].
           exists s, (rest ++ [f]). repeat split; auto.
           ++ apply Forall_app. auto.
           ++ change (s :: rest ++ [f]) with ((s :: rest) ++ [f]). apply Forall_app. auto.
        -- intros [(s & rest & -> & Hs & Hr & Hall) [pre E]].
           destruct (Hlast pre (s :: rest)) as (fs0 & E0 & EK); [discriminate|exact E|].
           destruct fs0 as [|s' fs0]; cbn in E0; injection E0 as -> ->; [congruence|].
           assert (Some (s' :: fs0) = p) as Hp; [|rewrite <- Hp; reflexivity].
           symmetry. apply IH. split; [|eauto]. exists s', fs0. repeat split; auto.
           ++ apply Forall_app in Hr. tauto.
           ++ change (s' :: fs0 ++ [f]) with ((s' :: fs0) ++ [f]) in Hall.
              apply Forall_app in Hall. tauto.
Qed.

Lemma one_transfer_snoc k fs f : Forall (fun g => transfer_key g = k) (fs ++ [f]) ->
  (one_transfer k (fs ++ [f]) <->
   end_of_transfer f = true /\
   (fs = [] /\ start_of_transfer f = true \/ open_transfer fs /\ start_of_transfer f = false)).
Proof.
  intros Hk. unfold one_transfer. split.
  - intros [_ H]. rewrite app_length in H. cbn [length] in H.
    destruct (H (length fs) f) as (_ & H1 & H2).
    { rewrite nth_error_app2, Nat.sub_diag by lia. reflexivity. }
    replace (S (length fs) =? length fs + 1) with true in H2 by lia.
    split; [exact H2|]. destruct fs as [|s rest]; [left; auto|right].
    split; [|exact H1]. exists s, rest. split; [reflexivity|].
    split; [|split].
    + destruct (H 0 s eq_refl) as (_ & E & _). exact E.
    + apply Forall_forall. intros g Hg. apply In_nth_error in Hg as [i Hg].
      destruct (H (S i) g) as (_ & E & _); [|exact E].
      rewrite nth_error_app1; [exact Hg|]. apply nth_error_Some. cbn. congruence.
    + apply Forall_forall. intros g Hg. apply In_nth_error in Hg as [i Hg].
      assert (i < length (s :: rest)) by (apply nth_error_Some; congruence).
      destruct (H i g) as (_ & _ & E); [rewrite nth_error_app1 by assumption; exact Hg|].
      rewrite E. lia.
  - intros [He H]. split; [destruct fs; discriminate|].
    intros i g Hg. split.
    { apply nth_error_In in Hg. rewrite Forall_forall in Hk. auto. }
    rewrite app_length. cbn [length].
    assert (i < length (fs ++ [f])) as Hi by (apply nth_error_Some; congruence).
    rewrite app_length in Hi. cbn [length] in Hi.
    destruct (Nat.eq_dec i (length fs)) as [->|Hne].
    + rewrite nth_error_app2, Nat.sub_diag in Hg by lia. injection Hg as <-.
      split.
      * destruct H as [[-> ->]|[(s & rest & -> & _) ->]]; reflexivity.
      * rewrite He. symmetry. apply Nat.eqb_eq. lia.
    + rewrite nth_error_app1 in Hg by lia.
      destruct H as [[-> _]|[(s & rest & -> & Hs & Hr & Hall) _]]; [cbn in *; lia|].
      split.
      * destruct i as [|i]; cbn in Hg; [injection Hg as <-; exact Hs|].
        rewrite Forall_forall in Hr. cbn. apply Hr. eapply nth_error_In. exact Hg.
      * rewrite Forall_forall in Hall. rewrite Hall by (eapply nth_error_In; exact Hg).
        symmetry. apply Nat.eqb_neq. lia.
Qed.

(** What the manager delivers at a frame. *)
Lemma step_output k K f fs : Forall (fun g => transfer_key g = k) (K ++ [f]) ->
  snd (step (fst (steps None K)) f) = Some fs <->
  one_transfer k fs /\ exists pre, K ++ [f] = pre ++ fs.
Proof.
  intros Hk. unfold step. pose proof (fun l => pending_spec l K) as HP.
  destruct (fst (steps None K)) as [l|] eqn:Ep.
  - destruct (proj1 (HP l) eq_refl) as [Hop [pre EK]].
    assert (Hsuf : forall fs' pre', open_transfer fs' -> K = pre' ++ fs' -> fs' = l).
    { intros fs' pre' H1 H2. assert (Some l = Some fs') as [= <-]; [|reflexivity].
      apply HP. eauto. }
    split.
    + destruct (end_of_transfer f) eqn:Ee; [|discriminate].
      destruct (start_of_transfer f) eqn:Es; intros [= <-].
      * split; [|eauto]. apply (one_transfer_snoc k [] f); [|auto].
        apply Forall_app in Hk. tauto.
      * split; [|exists pre; rewrite EK, app_assoc; reflexivity].
        apply one_transfer_snoc; [|auto]. rewrite EK, <- app_assoc in Hk.
        apply Forall_app in Hk. tauto.
    + intros [Ho [pre' E]]. pose proof Ho as [Hne _].
      destruct (exists_last Hne) as (fs0 & x & ->).
      rewrite app_assoc in E. apply app_inj_tail in E as [EK' <-].
      apply one_transfer_snoc in Ho as [-> H].
      2:{ rewrite EK', <- app_assoc in Hk. apply Forall_app in Hk. tauto. }
      destruct H as [[-> ->]|[Hop' ->]]; [reflexivity|].
      cbn [snd]. rewrite (Hsuf fs0 pre') by assumption. reflexivity.
  - split.
    + destruct (end_of_transfer f) eqn:Ee; [|discriminate].
      destruct (start_of_transfer f) eqn:Es; [|discriminate]. intros [= <-].
      split; [|eauto]. apply (one_transfer_snoc k [] f); [|auto]. apply Forall_app in Hk. tauto.
    + intros [Ho [pre' E]]. pose proof Ho as [Hne _].
      destruct (exists_last Hne) as (fs0 & x & ->).
      rewrite app_assoc in E. apply app_inj_tail in E as [EK' <-].
      apply one_transfer_snoc in Ho as [-> H].
      2:{ rewrite EK', <- app_assoc in Hk. apply Forall_app in Hk. tauto. }
      destruct H as [[-> ->]|[Hop' ->]]; [reflexivity|].
      assert (None = Some fs0) by (apply HP; eauto). discriminate.
Qed.

Lemma frames_with_key k arr : Forall (fun g => transfer_key g = k) (frames_with k arr).
Proof. apply Forall_forall. intros g Hg. apply filter_In in Hg as [_ Hg]. apply has_key_true. exact Hg. Qed.

Lemma feed_nodup : forall arr m, NoDup (map fst (m_active m)) -> NoDup (map fst (m_active (fst (feed m arr)))).
Proof.
  induction arr as [|[f now] arr IH]; intros m H; [exact H|]. cbn [feed].
  pose proof (receive_step m f now H) as Hr. destruct (receive_frame m f now) as [m1 o].
  destruct Hr as [H1 _]. specialize (IH m1 H1). destruct (feed m1 arr). exact IH.
Qed.

Theorem receive_exact arr f now fs :
  snd (receive_frame (fst (feed new_manager arr)) f now) = Some fs <->
  one_transfer (transfer_key f) fs /\
  exists earlier, frames_with (transfer_key f) arr ++ [f] = earlier ++ fs.
Proof.
  pose proof (feed_steps (transfer_key f) arr new_manager (NoDup_nil _)) as H.
  cbn [new_manager m_active dget] in H.
  pose proof (receive_step (fst (feed new_manager arr)) f now
    (feed_nodup arr new_manager (NoDup_nil _))) as Hr.
  destruct (receive_frame (fst (feed new_manager arr)) f now) as [m' o].
  destruct Hr as (_ & Hs & _). cbn [snd].
  rewrite <- (step_output (transfer_key f)).
  - rewrite H. cbn [fst]. rewrite Hs. reflexivity.
  - apply Forall_app. split; [apply frames_with_key|auto].
Qed.

(** ** Nothing is delivered twice *)
Lemma sub_refl {A} (l : list A) : subsequence l l.
Proof. induction l; [apply sub_nil|apply sub_take; assumption]. Qed.
Lemma sub_trans {A} (a b c : list A) : subsequence a b -> subsequence b c -> subsequence a c.
Proof.
  intros H1 H2. revert a H1. induction H2 as [l|x b c H2 IH|x b c H2 IH]; intros a H1.
  - inversion H1; apply sub_nil.
  - apply sub_skip. auto.
  - inversion H1; subst; [apply sub_nil|apply sub_skip|apply sub_take]; auto.
Qed.
Lemma sub_app {A} (a b c d : list A) : subsequence a b -> subsequence c d -> subsequence (a ++ c) (b ++ d).
Proof.
  intros H1 H2. induction H1 as [l|x a b H1 IH|x a b H1 IH]; cbn [app].
  - induction l; cbn [app]; [exact H2|apply sub_skip; auto].
  - apply sub_skip; auto.
  - apply sub_take; auto.
Qed.

Definition pend (p : option (list frame)) : list frame := match p with Some l => l | None => [] end.

Lemma steps_sub : forall K,
  subsequence (concat (somes (snd (steps None K))) ++ pend (fst (steps None K))) K.
Proof.
  intros K. induction K as [|f K IH] using rev_ind; [constructor|].
  rewrite steps_app. destruct (steps None K) as [p os]. cbn [steps fst snd] in *.
  destruct (step p f) as [p1 o] eqn:Es. cbn [fst snd]. rewrite somes_app, concat_app.
  assert (subsequence (concat (somes [o]) ++ pend p1) (pend p ++ [f])) as Hs.
  { unfold step in Es. destruct (end_of_transfer f), (start_of_transfer f), p as [l|];
      injection Es as <- <-; cbn [somes concat pend app]; rewrite ?app_nil_r;
      try apply sub_refl; try apply sub_nil;
      apply (sub_app [] l [f] [f]); try apply sub_nil; apply sub_refl. }
  eapply sub_trans; [|apply sub_app; [exact IH|apply sub_refl]].
  rewrite <- !app_assoc. apply sub_app; [apply sub_refl|exact Hs].
Qed.

Theorem delivered_subsequence k arr : subsequence (concat (delivered k arr)) (frames_with k arr).
Proof.
  rewrite delivered_steps. eapply sub_trans; [|apply steps_sub].
  rewrite <- (app_nil_r (concat _)) at 1. apply sub_app; [apply sub_refl|constructor].
Qed.

(** ** Interleaved transfers *)
Lemma steps_quiet : forall l p, Forall (fun f => start_of_transfer f = false /\ end_of_transfer f = false) l ->
  steps p l = (match p with Some q => Some (q ++ l) | None => None end, repeat None (length l)).
Proof.
  induction l as [|f l IH]; intros p H.
  - destruct p; cbn; rewrite ?app_nil_r; reflexivity.
  - inversion H as [|? ? [H1 H2] H3]; subst. cbn [steps]. unfold step. rewrite H1, H2.
    rewrite IH by exact H3. destruct p; cbn; rewrite <- ?app_assoc; reflexivity.
Qed.

Lemma somes_repeat {A} n : somes (repeat (@None A) n) = [].
Proof. induction n; auto. Qed.

Lemma one_transfer_shape k fs : one_transfer k fs ->
  (exists f, fs = [f] /\ start_of_transfer f = true /\ end_of_transfer f = true) \/
  (exists s mid e, fs = s :: mid ++ [e] /\
     start_of_transfer s = true /\ end_of_transfer s = false /\
     Forall (fun f => start_of_transfer f = false /\ end_of_transfer f = false) mid /\
     start_of_transfer e = false /\ end_of_transfer e = true).
Proof.
  intros H. pose proof H as [Hne Hall].
  destruct (exists_last Hne) as (fs0 & e & ->).
  apply one_transfer_snoc in H as [He H].
  2:{ apply Forall_forall. intros g Hg. apply In_nth_error in Hg as [i Hg]. apply Hall in Hg. tauto. }
  destruct H as [[-> Hs]|[(s & rest & -> & Hs & Hr & Hq) Hs']].
  - left. exists e. auto.
  - right. exists s, rest, e. inversion Hq; subst. repeat split; auto.
    clear - Hr H2. rewrite Forall_forall in *. auto.
Qed.

Lemma steps_transfer k fs p : one_transfer k fs ->
  fst (steps p fs) = None /\ somes (snd (steps p fs)) = [fs].
Proof.
  intros H. destruct (one_transfer_shape k fs H) as [(f & -> & H1 & H2)|
    (s & mid & e & -> & H1 & H2 & H3 & H4 & H5)].
  - cbn [steps]. unfold step. rewrite H1, H2. auto.
  - assert (steps p (s :: mid ++ [e]) =
      (None, None :: repeat None (length mid) ++ [Some (([s] ++ mid) ++ [e])])) as ->.
    { cbn [steps]. unfold step at 1. rewrite H1, H2. rewrite steps_app, steps_quiet by exact H3.
      cbn [steps]. unfold step. rewrite H4, H5. reflexivity. }
    cbn [fst snd]. split; [reflexivity|].
    change (somes (repeat None (length mid) ++ [Some (([s] ++ mid) ++ [e])]) = [s :: mid ++ [e]]).
    rewrite somes_app, somes_repeat. reflexivity.
Qed.

Theorem delivered_in_order k arr tss :
  frames_with k arr = concat tss -> Forall (one_transfer k) tss -> delivered k arr = tss.
Proof.
  intros E H. rewrite delivered_steps, E. clear E arr.
  assert (forall p, somes (snd (steps p (concat tss))) = tss) as Hg; [|apply Hg].
  induction H as [|ts tss H1 H IH]; intros p; [reflexivity|].
  cbn [concat]. rewrite steps_app. destruct (steps_transfer k ts p H1) as [E1 E2].
  destruct (steps p ts) as [p1 o1]. cbn [fst snd] in *. subst p1. specialize (IH None).
  destruct (steps None (concat tss)) as [p2 o2]. cbn [snd] in *.
  rewrite somes_app, E2, IH. reflexivity.
Qed.

Lemma interleaving_filter {A} (q : A -> bool) ls l : interleaving ls l ->
  forall i li, nth_error ls i = Some li -> Forall (fun x => q x = true) li ->
  (forall j lj, nth_error ls j = Some lj -> j <> i -> Forall (fun x => q x = false) lj) ->
  filter q l = li.
Proof.
  induction 1 as [ls Hn|before x l after rest H IH]; intros i li Hi Hq Hother.
  - rewrite Forall_forall in Hn. rewrite (Hn li); [reflexivity|]. eapply nth_error_In. exact Hi.
  - cbn [filter].
    assert (Hsame : forall j, j <> length before ->
      nth_error (before ++ (x :: l) :: after) j = nth_error (before ++ l :: after) j).
    { intros j Hj. destruct (Nat.lt_ge_cases j (length before)).
      - rewrite !nth_error_app1 by assumption. reflexivity.
      - rewrite !nth_error_app2 by assumption. destruct (j - length before) as [|d] eqn:E; [lia|reflexivity]. }
    assert (Hmid : forall y, nth_error (before ++ y :: after) (length before) = Some y).
    { intros y. rewrite nth_error_app2, Nat.sub_diag by lia. reflexivity. }
    destruct (Nat.eq_dec i (length before)) as [->|Hne].
    + rewrite Hmid in Hi. injection Hi as <-. inversion Hq as [|? ? Hx Hl]; subst.
      rewrite Hx. f_equal. apply (IH (length before)); [apply Hmid|exact Hl|].
      intros j lj Hj Hn. apply (Hother j); [rewrite Hsame by exact Hn; exact Hj|exact Hn].
    + pose proof (Hother (length before) (x :: l) (Hmid _) ltac:(congruence)) as Hx.
      inversion Hx as [|? ? Hx0 Hl]; subst. rewrite Hx0.
      apply (IH i); [rewrite <- Hsame by exact Hne; exact Hi|exact Hq|].
      intros j lj Hj Hn. destruct (Nat.eq_dec j (length before)) as [->|Hj'].
      * rewrite Hmid in Hj. injection Hj as <-. exact Hl.
      * apply (Hother j); [rewrite Hsame by exact Hj'; exact Hj|exact Hn].
Qed.

Theorem interleaved_delivered ks tss foreign arr :
  Forall2 one_transfer ks tss -> NoDup ks ->
  Forall (fun f => ~ In (transfer_key f) ks) foreign ->
  interleaving (foreign :: tss) (map fst arr) ->
  forall i k ts, nth_error ks i = Some k -> nth_error tss i = Some ts -> delivered k arr = [ts].
Proof.
  intros H2 Hnd Hfor Hint i k ts Hk Hts.
  assert (Hkeys : forall j kj tj, nth_error ks j = Some kj -> nth_error tss j = Some tj ->
            one_transfer kj tj).
  { intros j kj tj Hj Hj'. destruct (Forall2_nth_r _ _ _ H2 _ _ Hj') as (k' & Hk' & Ho).
    rewrite Hj in Hk'. injection Hk' as <-. exact Ho. }
  apply delivered_in_order; [|constructor; [eapply Hkeys; eassumption|constructor]].
  cbn [concat]. rewrite app_nil_r. unfold frames_with.
  apply (interleaving_filter _ _ _ Hint (S i)); [exact Hts| |].
  - destruct (Hkeys _ _ _ Hk Hts) as [_ Ha]. apply Forall_forall. intros f Hf.
    apply In_nth_error in Hf as [n Hf]. apply has_key_true. apply Ha in Hf. tauto.
  - intros [|j] lj Hj Hne; cbn in Hj.
    + injection Hj as <-. rewrite Forall_forall in Hfor |- *. intros f Hf.
      destruct (has_key k f) eqn:E; [|reflexivity]. apply has_key_true in E.
      exfalso. apply (Hfor f Hf). rewrite E. eapply nth_error_In. exact Hk.
    + destruct (Forall2_nth_r _ _ _ H2 _ _ Hj) as (kj & Hkj & [_ Ha]).
      apply Forall_forall. intros f Hf. apply In_nth_error in Hf as [n Hf].
      destruct (has_key k f) eqn:E; [|reflexivity]. apply has_key_true in E.
      apply Ha in Hf. destruct Hf as [Ef _]. exfalso. apply Hne. f_equal.
      rewrite NoDup_nth_error in Hnd. apply Hnd; [apply nth_error_Some; congruence|]. congruence.
Qed.

(** ** One lost, repeated or exchanged frame *)
Lemma wrong_toggle types fs i f : nth_error fs i = Some f ->
  (forall g, In g fs -> f_bytes g <> []) ->
  toggle f <> Nat.odd i -> from_frames types fs = Err TransferError.
Proof.
  intros Hf Hb Ht. destruct fs as [|f0 fs]; [destruct i; discriminate|].
  unfold from_frames.
  destruct (last_byte (f_bytes f0)) as [tb|] eqn:El.
  2:{ exfalso. apply (Hb f0); [left; reflexivity|]. destruct (f_bytes f0); [reflexivity|discriminate]. }
  cbn [bind]. rewrite check_tails_bad; [reflexivity|exact Hb|].
  intros H. apply Ht. destruct (H i f Hf) as (tb' & Hl & _ & _ & _ & E).
  unfold toggle, frame_flag. rewrite Hl. exact E.
Qed.

Lemma quiet_wrong types fs0 s mid e n :
  (forall g, In g fs0 -> f_bytes g <> []) -> incl (s :: mid ++ [e]) fs0 ->
  toggle e = Nat.odd n -> Nat.odd (S (length mid)) <> Nat.odd n ->
  from_frames types (s :: mid ++ [e]) = Err TransferError.
Proof.
  intros Hb Hi Ht Hne. apply (wrong_toggle types _ (S (length mid)) e).
  - cbn [nth_error]. rewrite nth_error_app2, Nat.sub_diag by lia. reflexivity.
  - intros g Hg. apply Hb, Hi, Hg.
  - congruence.
Qed.

Definition outs (p : option (list frame)) (K : list frame) := somes (snd (steps p K)).

Lemma outs_cons p f K : outs p (f :: K) =
  match snd (step p f) with Some o => [o] | None => [] end ++ outs (fst (step p f)) K.
Proof.
  unfold outs. cbn [steps]. destruct (step p f) as [p1 o]. cbn [snd fst].
  destruct (steps p1 K) as [p2 os]. destruct o; reflexivity.
Qed.

Notation quiet f := (start_of_transfer f = false /\ end_of_transfer f = false).

Lemma outs_quiet p l K : Forall (fun f => quiet f) l ->
  outs p (l ++ K) = outs (match p with Some q => Some (q ++ l) | None => None end) K.
Proof.
  intros H. unfold outs. rewrite steps_app, steps_quiet by exact H.
  destruct (steps _ K) as [p2 os]. cbn [snd]. rewrite somes_app, somes_repeat. reflexivity.
Qed.

Lemma outs_start p s K : start_of_transfer s = true -> end_of_transfer s = false ->
  outs p (s :: K) = outs (Some [s]) K.
Proof. intros H1 H2. rewrite outs_cons. unfold step. rewrite H1, H2. reflexivity. Qed.

Lemma outs_end p e K : start_of_transfer e = false -> end_of_transfer e = true ->
  outs p (e :: K) = match p with Some q => [q ++ [e]] | None => [] end ++ outs None K.
Proof. intros H1 H2. rewrite outs_cons. unfold step. rewrite H1, H2. destruct p; reflexivity. Qed.

Lemma snoc_split {A} (a : list A) x b mid e : a ++ x :: b = mid ++ [e] ->
  (b = [] /\ a = mid /\ x = e) \/ (exists b', b = b' ++ [e] /\ mid = a ++ x :: b').
Proof.
  intros H. destruct b as [|y b0] using rev_ind.
  - left. apply app_inj_tail in H as [-> ->]. auto.
  - right. clear IHb0. exists b0.
    change (a ++ x :: b0 ++ [y]) with (a ++ (x :: b0) ++ [y]) in H. rewrite app_assoc in H.
    apply app_inj_tail in H as [<- ->]. auto.
Qed.

Lemma odd_next n : Nat.odd n <> Nat.odd (S n).
Proof. rewrite Nat.odd_succ, <- Nat.negb_odd. destruct (Nat.odd n); discriminate. Qed.

Theorem faulty_delivery types id fd tid body fs K k arr :
  carries id fd tid body fs -> (2 <= length fs)%nat -> fault fs K ->
  k = (id, Some (tid mod 32)%N) -> frames_with k arr = K ->
  forall o, In o (delivered k arr) -> o = fs \/ from_frames types o = Err TransferError.
Proof.
  intros Hc H2 Hf Hk HK o Ho.
  pose proof (carries_one_transfer _ _ _ _ _ Hc) as H1. rewrite <- Hk in H1.
  rewrite delivered_steps, HK in Ho. fold (outs None K) in Ho. clear HK arr.
  assert (Hb : forall g, In g fs -> f_bytes g <> []).
  { intros g Hg. apply In_nth_error in Hg as [i Hg].
    destruct Hc as [_ _ Hc]. apply Hc in Hg as (_ & _ & piece & -> & _). destruct piece; discriminate. }
  assert (Ht : forall i g, nth_error fs i = Some g -> toggle g = Nat.odd i).
  { intros i g Hg. destruct (carries_tails _ _ _ _ _ Hc _ _ Hg) as (tb & Hl & _ & _ & _ & E).
    unfold toggle, frame_flag. rewrite Hl. exact E. }
  destruct (one_transfer_shape k fs H1) as [(f & -> & _)|
    (s & mid & e & -> & S1 & S2 & Q & E1 & E2)]; [cbn in H2; lia|]. clear H1 H2 Hc Hk k body.
  assert (Te : toggle e = Nat.odd (S (length mid))).
  { apply Ht. cbn [nth_error]. rewrite nth_error_app2, Nat.sub_diag by lia. reflexivity. }
  remember (s :: mid ++ [e]) as fs0 eqn:Efs.
  assert (Qapp : forall a b, mid = a ++ b -> Forall (fun f => quiet f) a /\ Forall (fun f => quiet f) b).
  { intros a b E. apply Forall_app. rewrite <- E. exact Q. }
  destruct Hf as [a x b|a x b|a x y b].
  - destruct a as [|a0 a]; cbn [app] in *; injection Efs as -> Efs.
    + (* first frame lost *)
      subst b. rewrite outs_quiet in Ho by exact Q. rewrite outs_end in Ho by assumption.
      destruct Ho.
    + rewrite outs_start in Ho by assumption.
      apply snoc_split in Efs as [(-> & -> & ->)|(b' & -> & Em)].
      * rewrite outs_quiet in Ho by exact Q. destruct Ho.
      * destruct (Qapp _ _ Em) as [Qa Qb]. inversion Qb as [|? ? Qx Qb']; subst.
        rewrite app_assoc in Ho. rewrite outs_quiet in Ho by (apply Forall_app; auto).
        rewrite outs_end in Ho by assumption. destruct Ho as [<-|[]]. right.
        cbn [app]. eapply quiet_wrong; [exact Hb| |exact Te|].
        -- intros g Hg. repeat (cbn [In] in Hg |- *; rewrite ?in_app_iff in * ). tauto.
        -- rewrite !app_length. cbn [length].
           replace (S (length a + S (length b'))) with (S (S (length a + length b'))) by lia.
           first [apply odd_next | apply not_eq_sym, odd_next].
  - destruct a as [|a0 a]; cbn [app] in *; injection Efs as -> Efs.
    + subst b. rewrite !outs_start in Ho by assumption. rewrite outs_quiet in Ho by exact Q.
      rewrite outs_end in Ho by assumption. destruct Ho as [<-|[]]. left. reflexivity.
    + rewrite outs_start in Ho by assumption.
      apply snoc_split in Efs as [(-> & -> & ->)|(b' & -> & Em)].
      * rewrite outs_quiet in Ho by exact Q. rewrite !outs_end in Ho by assumption.
        destruct Ho as [<-|[]]. left. reflexivity.
      * destruct (Qapp _ _ Em) as [Qa Qb]. inversion Qb as [|? ? Qx Qb']; subst.
        change (a ++ x :: x :: b' ++ [e]) with (a ++ (x :: x :: b') ++ [e]) in Ho.
        rewrite app_assoc in Ho. rewrite outs_quiet in Ho by (apply Forall_app; auto).
        rewrite outs_end in Ho by assumption. destruct Ho as [<-|[]]. right.
        cbn [app]. eapply quiet_wrong; [exact Hb| |exact Te|].
        -- intros g Hg. repeat (cbn [In] in Hg |- *; rewrite ?in_app_iff in * ). tauto.
        -- rewrite !app_length. cbn [length].
           replace (S (length a + S (S (length b')))) with (S (S (length a + S (length b')))) by lia.
           first [apply odd_next | apply not_eq_sym, odd_next].
  - destruct a as [|a0 a]; cbn [app] in *; injection Efs as -> Efs.
    + destruct mid as [|m0 mid].
      * injection Efs as -> ->. rewrite outs_end in Ho by assumption.
        cbn [app] in Ho. rewrite outs_start in Ho by assumption. destruct Ho.
      * injection Efs as -> ->. inversion Q as [|? ? Q0 Q']; subst.
        change (m0 :: s :: mid ++ [e]) with ([m0] ++ s :: mid ++ [e]) in Ho.
        rewrite outs_quiet in Ho by auto.
        rewrite outs_start in Ho by assumption. rewrite outs_quiet in Ho by exact Q'.
        rewrite outs_end in Ho by assumption. destruct Ho as [<-|[]]. right.
        cbn [app]. eapply quiet_wrong; [exact Hb| |exact Te|].
        -- intros g Hg. repeat (cbn [In app] in Hg |- *; rewrite ?in_app_iff in * ). tauto.
        -- cbn [length]. first [apply odd_next | apply not_eq_sym, odd_next].
    + rewrite outs_start in Ho by assumption.
      change (a ++ x :: y :: b) with (a ++ [x] ++ y :: b) in Efs. rewrite app_assoc in Efs.
      apply snoc_split in Efs as [(-> & Em & ->)|(b' & -> & Em)].
      * destruct (Qapp _ _ (eq_sym Em)) as [Qa Qx].
        rewrite outs_quiet in Ho by exact Qa. rewrite outs_end in Ho by assumption.
        rewrite <- (app_nil_r [x]) in Ho. rewrite outs_quiet in Ho by exact Qx.
        destruct Ho as [<-|[]]. right.
        cbn [app]. eapply quiet_wrong; [exact Hb| |exact Te|].
        -- intros g Hg. repeat (cbn [In] in Hg |- *; rewrite ?in_app_iff in * ). tauto.
        -- rewrite <- Em, app_length. cbn [length]. rewrite Nat.add_1_r.
           first [apply odd_next | apply not_eq_sym, odd_next].
      * rewrite <- app_assoc in Em. cbn [app] in Em.
        destruct (Qapp _ _ Em) as [Qa Qb]. inversion Qb as [|? ? Qx Qb']; subst.
        inversion Qb' as [|? ? Qy Qb'']; subst.
        change (a ++ y :: x :: b' ++ [e]) with (a ++ (y :: x :: b') ++ [e]) in Ho.
        rewrite app_assoc in Ho. rewrite outs_quiet in Ho by (apply Forall_app; auto).
        rewrite outs_end in Ho by assumption. destruct Ho as [<-|[]]. right.
        apply (wrong_toggle types _ (S (length a)) y).
        -- cbn [app nth_error]. rewrite <- !app_assoc. rewrite nth_error_app2, Nat.sub_diag by lia. reflexivity.
        -- intros g Hg. apply Hb. repeat (cbn [In app] in Hg |- *; rewrite ?in_app_iff in * ). tauto.
        -- rewrite (Ht (S (S (length a)))).
           ++ first [apply odd_next | apply not_eq_sym, odd_next].
           ++ change (nth_error (a ++ [x] ++ y :: b' ++ [e]) (S (length a)) = Some y).
              replace (S (length a)) with (length (a ++ [x])) by (rewrite app_length; cbn; lia).
              rewrite app_assoc, nth_error_app2, Nat.sub_diag by lia. reflexivity.
Qed.

(** ** Stale transfers *)
Definition stale (m : manager) (now timeout : Z) (k : key) : bool :=
  match dget key_eqb (m_times m) k with Some ts => (timeout <? now - ts)%Z | None => false end.

Lemma remove_loop_spec now timeout m : forall keys,
  (forall k, In k keys -> dget key_eqb (m_times m) k <> None) ->
  remove_loop keys m now timeout false =
  match find (stale m now timeout) keys with
  | None => (m, Ok tt)
  | Some k => (Manager (ddel key_eqb (m_active m) k) (ddel key_eqb (m_times m) k), Err RuntimeError)
  end.
Proof.
  induction keys as [|k keys IH]; intros H; [reflexivity|].
  cbn [remove_loop find]. unfold stale at 1.
  destruct (dget key_eqb (m_times m) k) as [ts|] eqn:E.
  - destruct (timeout <? now - ts)%Z.
    + destruct keys; reflexivity.
    + apply IH. intros k' Hk'. apply H. right. exact Hk'.
  - exfalso. apply (H k); [left; reflexivity|exact E].
Qed.

Lemma times_track : forall arr m, map fst (m_times m) = map fst (m_active m) ->
  map fst (m_times (fst (feed m arr))) = map fst (m_active (fst (feed m arr))).
Proof.
  assert (Hset : forall V W (d : list (key * V)) (d' : list (key * W)) k v w,
    map fst d = map fst d' -> map fst (dset key_eqb d k v) = map fst (dset key_eqb d' k w)).
  { intros V W. induction d as [|[k0 v0] d IH]; intros [|[k1 v1] d'] k v w E; try discriminate; [reflexivity|].
    cbn in *. injection E as -> E. destruct (key_eqb k k1); cbn; f_equal; auto. }
  assert (Hdel : forall V W (d : list (key * V)) (d' : list (key * W)) k,
    map fst d = map fst d' -> map fst (ddel key_eqb d k) = map fst (ddel key_eqb d' k)).
  { intros V W. induction d as [|[k0 v0] d IH]; intros [|[k1 v1] d'] k E; try discriminate; [reflexivity|].
    cbn in *. injection E as -> E. destruct (key_eqb k k1); cbn; [exact E|f_equal; auto]. }
  assert (Hsame : forall V (d : list (key * V)) k v w,
    map fst (dset key_eqb (dset key_eqb d k v) k w) = map fst (dset key_eqb d k w)).
  { intros V d k v w. induction d as [|[k0 v0] d IH]; cbn.
    - destruct (key_eqb k k) eqn:E; [reflexivity|]. rewrite (proj2 (key_eqb_spec k k)) in E by reflexivity. discriminate.
    - destruct (key_eqb k k0) eqn:E; cbn; rewrite E; cbn; [reflexivity|]. f_equal. exact IH. }
  induction arr as [|[f now] arr IH]; intros m H; [exact H|]. cbn [feed].
  assert (Hm : map fst (m_times (fst (receive_frame m f now))) = map fst (m_active (fst (receive_frame m f now)))).
  { unfold receive_frame. set (k := transfer_key f).
    destruct (dmem key_eqb (m_active m) k || start_of_transfer f); [|exact H].
    destruct (start_of_transfer f), (end_of_transfer f); cbn [fst m_times m_active];
      try apply Hdel; rewrite ?Hsame; apply Hset; exact H. }
  destruct (receive_frame m f now) as [m1 o]. specialize (IH m1 Hm).
  destruct (feed m1 arr). exact IH.
Qed.

Theorem remove_inactive_exact arr now timeout :
  let m := fst (feed new_manager arr) in
  remove_inactive_transfers m now timeout =
  match find (stale m now timeout) (map fst (m_active m)) with
  | None => (m, Ok tt)
  | Some k => (Manager (ddel key_eqb (m_active m) k) (ddel key_eqb (m_times m) k), Err RuntimeError)
  end.
Proof.
  cbv zeta. apply remove_loop_spec. intros k Hk E.
  apply (dget_None_keys key_eqb key_eqb_spec) in E. apply E.
  rewrite times_track by reflexivity. exact Hk.
Qed.
