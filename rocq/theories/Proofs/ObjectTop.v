(** Consequences for programs: sizes, unions, frames, array contents, text. *)
From Coq Require Import String.
From Verif.Base Require Import Prelude Bits.
From Verif.Model Require Import BitCodec Types Codec Prim Float Utf8 ObjectApi.
From Verif.Spec Require Import PrimSpec CodecSpec ObjectSpec.
From Verif.Proofs Require Import CodecFacts PrimFacts Utf8Facts ObjectFacts.
Open Scope list_scope.

(** ** Programs *)

Definition below (n : nat) (r : addr) : Prop := r < n.

Lemma usable_below n0 n r : usable (below n0) n0 n r -> n0 <= n -> below n r.
Proof. unfold usable, below. lia. Qed.

Lemma no_dangling_good h : no_dangling h -> good (below (length h)) (length h) h.
Proof.
  intros H. split; [lia|]. intros a c Hc _. eapply cell_refs_mono; [|exact (H a c Hc)].
  intros r Hr. left. exact Hr.
Qed.

Lemma step_legal h o : no_dangling h -> op_refs (below (length h)) o ->
  evolves (below (length h)) (length h) (fun a => exists f, o = OSwitch a f) h (snd (step h o)) /\
  no_dangling (snd (step h o)) /\
  (forall v, fst (step h o) = Ok v -> val_refs (below (length (snd (step h o)))) v).
Proof.
  intros Hd Ho.
  destruct (step_sound (below (length h)) (length h) (fun a => exists f, o = OSwitch a f) h o) as (A & B); eauto.
  - apply no_dangling_good. exact Hd.
  - eapply op_refs_mono; [|exact Ho]. intros r Hr. left. exact Hr.
  - split; [exact A|]. pose proof (evolves_length _ _ _ _ _ A) as HL.
    destruct (evolves_good _ _ _ _ _ A (no_dangling_good h Hd)) as (_ & G).
    split.
    + intros a c Hc. eapply cell_refs_mono; [intros r Hr; exact (usable_below _ _ _ Hr HL)|].
      apply (G a c Hc). unfold usable, below.
      assert (a < length (snd (step h o))) by (apply nth_error_Some; congruence).
      lia.
    + intros v Hv. rewrite Hv in B. cbn in B. eapply val_refs_mono; [|exact B].
      intros r Hr. exact (usable_below _ _ _ Hr HL).
Qed.

Lemma run_no_dangling ops : forall h, no_dangling h -> legal_run h ops -> no_dangling (run h ops).
Proof.
  induction ops as [|o ops IH]; intros h Hd Hl; [exact Hd|].
  destruct Hl as (Ho & Hl). cbn [run]. apply IH; [|exact Hl]. apply step_legal; assumption.
Qed.

Lemma run_sizes ops : forall h, no_dangling h -> Forall size_ok h -> legal_run h ops ->
  Forall size_ok (run h ops).
Proof.
  induction ops as [|o ops IH]; intros h Hd Hs Hl; [exact Hs|].
  destruct Hl as (Ho & Hl). cbn [run]. destruct (step_legal h o Hd Ho) as (A & B & _).
  apply IH; [exact B| |exact Hl]. eapply evolves_sizes; eauto.
Qed.

Lemma sizes_within_iff h : sizes_within h <-> Forall size_ok h.
Proof.
  split.
  - intros H. apply Forall_forall. intros c Hc. apply In_nth_error in Hc as (a & Ha).
    destruct c; cbn; auto. eapply H. exact Ha.
  - intros H a dyn et mx items Ha. rewrite Forall_forall in H.
    apply (H (CArr dyn et mx items)). eapply nth_error_In. exact Ha.
Qed.

Lemma nil_no_dangling : no_dangling [].
Proof. intros a c H. destruct a; discriminate. Qed.

Lemma program_sizes ops : legal_run [] ops -> sizes_within (run [] ops).
Proof.
  intros H. apply sizes_within_iff. apply run_sizes; [apply nil_no_dangling|constructor|exact H].
Qed.

Lemma run_keeps_sizes h ops : no_dangling h -> sizes_within h -> legal_run h ops ->
  sizes_within (run h ops).
Proof. rewrite !sizes_within_iff. intros. apply run_sizes; assumption. Qed.

Lemma run_comp ops : forall h a full u fs cs d active extra, no_dangling h -> legal_run h ops ->
  ~ switches a ops -> nth_error h a = Some (CComp full u fs cs d active extra) ->
  exists active' extra', nth_error (run h ops) a = Some (CComp full u fs cs d active' extra') /\
    (active = None \/ active' = active).
Proof.
  induction ops as [|o ops IH]; intros h a full u fs cs d active extra Hd Hl Hns Ha.
  - exists active, extra. split; [exact Ha|]. right. reflexivity.
  - destruct Hl as (Ho & Hl). cbn [run]. destruct (step_legal h o Hd Ho) as (A & B & _).
    destruct (evolves_comp _ _ _ _ _ A _ _ _ _ _ _ _ _ Ha) as (act1 & ex1 & E1 & D1).
    assert (~ switches a ops) as Hns2 by (intros (g & Hg); apply Hns; exists g; right; exact Hg).
    destruct (IH _ _ _ _ _ _ _ _ _ B Hl Hns2 E1) as (act2 & ex2 & E2 & D2).
    exists act2, ex2. split; [exact E2|].
    destruct D1 as [D1|[-> |(g & ->)]]; [left; exact D1|exact D2|].
    exfalso. apply Hns. exists g. left. reflexivity.
Qed.

Lemma active_stays ops h a t f : no_dangling h -> legal_run h ops -> ~ switches a ops ->
  object_at h a t (Some f) -> object_at (run h ops) a t (Some f).
Proof.
  intros Hd Hl Hns H. destruct t; try contradiction. destruct H as (d & extra & H).
  destruct (run_comp _ _ _ _ _ _ _ _ _ _ Hd Hl Hns H) as (act & ex & E & [D|D]); [discriminate|].
  subst act. exists d, ex. exact E.
Qed.

(** ** Programs that stay away from a set of objects *)

Definition closed_out (h : heap) (P : addr -> Prop) : Prop :=
  forall a c, nth_error h a = Some c -> ~ P a -> cell_refs (fun r => ~ P r) c.

Lemma step_avoids h o (P : addr -> Prop) :
  no_dangling h -> op_refs (below (length h)) o ->
  (forall a, P a -> a < length h) -> closed_out h P -> op_refs (fun r => ~ P r) o ->
  (forall a, P a -> nth_error (snd (step h o)) a = nth_error h a) /\
  closed_out (snd (step h o)) P /\ length h <= length (snd (step h o)).
Proof.
  intros Hd Ho HP Hc Hop.
  assert (forall n r, usable (fun r => ~ P r) (length h) n r -> ~ P r) as HU.
  { intros n r [H|H] HPr; [auto|]. apply HP in HPr. lia. }
  destruct (step_sound (fun r => ~ P r) (length h) (fun _ => True) h o) as (A & B); auto.
  - split; [lia|]. intros a c Ha Hu. eapply cell_refs_mono; [|exact (Hc a c Ha (HU _ _ Hu))].
    intros r Hr. left. exact Hr.
  - eapply op_refs_mono; [|exact Hop]. intros r Hr. left. exact Hr.
  - pose proof (evolves_length _ _ _ _ _ A) as HL.
    split; [|split; [|exact HL]].
    + intros a Ha. apply (evolves_frame _ _ _ _ _ A); [auto|]. intros Hu. apply HU in Hu. auto.
    + assert (good (fun r => ~ P r) (length h) h) as G.
      { split; [lia|]. intros a c Ha Hu. eapply cell_refs_mono; [|exact (Hc a c Ha (HU _ _ Hu))].
        intros r Hr. left. exact Hr. }
      destruct (evolves_good _ _ _ _ _ A G) as (_ & G').
      intros a c Ha Hn. eapply cell_refs_mono; [apply HU|]. apply (G' a c Ha).
      left. exact Hn.
Qed.

Lemma run_avoids ops : forall h (P : addr -> Prop),
  no_dangling h -> legal_run h ops ->
  (forall a, P a -> a < length h) -> closed_out h P -> avoids P ops ->
  forall a, P a -> nth_error (run h ops) a = nth_error h a.
Proof.
  induction ops as [|o ops IH]; intros h P Hd Hl HP Hc Ha a HPa; [reflexivity|].
  destruct Hl as (Ho & Hl). cbn [run].
  unfold avoids in Ha. apply Forall_cons_iff in Ha as (Ha1 & Ha2).
  destruct (step_avoids h o P Hd Ho HP Hc Ha1) as (A & B & C).
  destruct (step_legal h o Hd Ho) as (_ & D & _).
  rewrite (IH (snd (step h o)) P D Hl); auto.
  intros b Hb. apply HP in Hb. lia.
Qed.

(** ** The content of an object depends on what it refers to only *)

Lemma reify_frame (P : addr -> Prop) h h' :
  (forall a, P a -> nth_error h' a = nth_error h a) ->
  (forall a c, nth_error h a = Some c -> P a -> cell_refs P c) ->
  forall t s, slot_refs P s -> reify h' t s = reify h t s.
Proof.
  intros Heq Hcl t. induction t as [k n cm|n|dyn et mx IH|nm u fs cs IH] using atype_ind'; intros s Hs.
  - reflexivity.
  - reflexivity.
  - cbn [reify]. destruct s as [| |[| | | | | |a]]; auto. cbn in Hs. rewrite Heq by exact Hs.
    destruct (nth_error h a) as [[dyn' et' mx' items| |]|] eqn:E; auto.
    specialize (Hcl _ _ E Hs). cbn in Hcl.
    replace (map (reify h' et) items) with (map (reify h et) items); [reflexivity|].
    apply map_ext_in. intros s Hin. symmetry. apply IH. rewrite Forall_forall in Hcl. auto.
  - cbn [reify]. destruct s as [| |[| | | | | |a]]; auto. cbn in Hs. rewrite Heq by exact Hs.
    destruct (nth_error h a) as [[| |nm' u' fs' cs' d act ex]|] eqn:E; auto.
    destruct (String.eqb nm nm'); [|reflexivity].
    destruct (Hcl _ _ E Hs) as (Hd & _). rewrite Heq by exact Hd.
    destruct (nth_error h d) as [[|slots|]|] eqn:Ed; auto.
    pose proof (Hcl _ _ Ed Hd) as Hsl. cbn in Hsl.
    replace (zip_some (map (fun f => reify h' (snd f)) fs) slots)
      with (zip_some (map (fun f => reify h (snd f)) fs) slots); [reflexivity|].
    clear -IH Hsl. revert slots Hsl. induction IH as [|f fs Hf H IHf]; intros slots Hsl; [reflexivity|].
    destruct slots as [|s slots]; [reflexivity|].
    apply Forall_cons_iff in Hsl as (Hs & Hsl). cbn [map zip_some].
    rewrite (Hf s Hs). rewrite (IHf slots Hsl). reflexivity.
Qed.

(** ** Deep copies *)

Lemma shifted_nth h a : nth_error (h ++ map (shift_cell (length h)) h) (a + length h) =
  option_map (shift_cell (length h)) (nth_error h a).
Proof.
  rewrite nth_error_app2 by lia. replace (a + length h - length h) with a by lia.
  apply nth_error_map.
Qed.

Lemma reify_shift h : forall t s,
  reify (h ++ map (shift_cell (length h)) h) t (shift_slot (length h) s) = reify h t s.
Proof.
  set (h' := h ++ map (shift_cell (length h)) h).
  assert (forall a, nth_error h' (a + length h) =
    option_map (shift_cell (length h)) (nth_error h a)) as HN by (intros; apply shifted_nth).
  clearbody h'.
  induction t as [k n cm|n|dyn et mx IH|nm u fs cs IH] using atype_ind'; intros s.
  - destruct s; reflexivity.
  - destruct s; reflexivity.
  - cbn [reify]. destruct s as [| |[| | | | | |a]]; auto. cbn [shift_slot shift_val].
    rewrite HN. destruct (nth_error h a) as [[dyn' et' mx' items| |]|]; auto.
    cbn [option_map shift_cell]. rewrite map_map.
    rewrite (map_ext _ (reify h et)) by (intros; apply IH). reflexivity.
  - cbn [reify]. destruct s as [| |[| | | | | |a]]; auto. cbn [shift_slot shift_val].
    rewrite HN. destruct (nth_error h a) as [[| |nm' u' fs' cs' d act ex]|]; auto.
    cbn [option_map shift_cell]. destruct (String.eqb nm nm'); [|reflexivity].
    rewrite HN. destruct (nth_error h d) as [[|slots|]|]; auto.
    cbn [option_map shift_cell].
    replace (zip_some (map (fun f => reify h' (snd f)) fs) (map (shift_slot (length h)) slots))
      with (zip_some (map (fun f => reify h (snd f)) fs) slots); [reflexivity|].
    clear -IH. revert slots. induction IH as [|f fs Hf H IHf]; intros slots.
    + destruct slots; reflexivity.
    + destruct slots as [|s slots]; [reflexivity|]. cbn [map zip_some].
      rewrite (Hf s), (IHf slots). reflexivity.
Qed.

Definition in_copy (n : nat) (r : addr) : Prop := n <= r < n + n.

Lemma copy_no_dangling h : no_dangling h -> no_dangling (h ++ map (shift_cell (length h)) h).
Proof.
  intros Hd a c Ha. rewrite app_length, map_length.
  destruct (Nat.lt_ge_cases a (length h)) as [H|H].
  - rewrite nth_error_app1 in Ha by exact H. eapply cell_refs_mono; [|exact (Hd a c Ha)].
    intros r Hr. cbn in *. lia.
  - rewrite nth_error_app2, nth_error_map in Ha by exact H.
    destruct (nth_error h (a - length h)) as [c0|] eqn:E; [|discriminate].
    injection Ha as <-. eapply cell_refs_mono; [|apply shift_cell_refs_lt; exact (Hd _ _ E)].
    intros r Hr. cbn in *. lia.
Qed.

(** The copy refers to the copy only, everything else to everything else. *)
Lemma copy_apart h : no_dangling h ->
  apart (h ++ map (shift_cell (length h)) h) (in_copy (length h)).
Proof.
  intros Hd a c Ha. destruct (Nat.lt_ge_cases a (length h)) as [H|H].
  - rewrite nth_error_app1 in Ha by exact H. split.
    + intros Hi. unfold in_copy in Hi. lia.
    + intros _. eapply cell_refs_mono; [|exact (Hd a c Ha)]. unfold in_copy. intros r Hr. lia.
  - assert (a < length h + length h) as H2.
    { assert (a < length (h ++ map (shift_cell (length h)) h)) as H2 by (apply nth_error_Some; congruence).
      rewrite app_length, map_length in H2. exact H2. }
    rewrite nth_error_app2, nth_error_map in Ha by exact H.
    destruct (nth_error h (a - length h)) as [c0|] eqn:E; [|discriminate].
    injection Ha as <-. split.
    + intros _. eapply cell_refs_mono; [|apply shift_cell_refs_lt; exact (Hd _ _ E)].
      unfold in_copy. intros r Hr. cbn in *. lia.
    + intros Hi. unfold in_copy in Hi. lia.
Qed.

Lemma deepcopy_equal h a t : a < length h ->
  exists b h', deepcopy h a = (Ok (PRef b), h') /\
    reify h' t (SObj (PRef b)) = reify h t (SObj (PRef a)).
Proof.
  intros Ha. unfold deepcopy. destruct (nth_error h a) eqn:E.
  2:{ apply nth_error_None in E. lia. }
  eexists. eexists. split; [reflexivity|]. apply (reify_shift h t (SObj (PRef a))).
Qed.

Lemma deepcopy_original h a t : no_dangling h -> a < length h ->
  reify (snd (deepcopy h a)) t (SObj (PRef a)) = reify h t (SObj (PRef a)).
Proof.
  intros Hd Ha. unfold deepcopy. destruct (nth_error h a) eqn:E; [|reflexivity].
  cbn [snd]. apply (reify_frame (below (length h))).
  - intros b Hb. apply nth_error_app1. exact Hb.
  - intros b c' Hb _. exact (Hd b c' Hb).
  - exact Ha.
Qed.

(** Sets apart: a program outside cannot change what is inside. *)
Lemma apart_keeps h P ops t a : no_dangling h -> apart h P -> (forall r, P r -> r < length h) ->
  legal_run h ops -> avoids P ops -> P a ->
  reify (run h ops) t (SObj (PRef a)) = reify h t (SObj (PRef a)).
Proof.
  intros Hd HA HP Hl Hav Ha. apply (reify_frame P).
  - intros b Hb. apply run_avoids with (P := P); auto. intros b' c Hc Hn. exact (proj2 (HA _ _ Hc) Hn).
  - intros b c Hb HPb. exact (proj1 (HA _ _ Hb) HPb).
  - exact Ha.
Qed.

Lemma apart_compl h (P : addr -> Prop) : (forall r, P r \/ ~ P r) -> apart h P -> apart h (fun r => ~ P r).
Proof.
  intros Hdec HA a c Hc. destruct (HA a c Hc) as (A & B). split; [exact B|].
  intros Hn. assert (P a) as Ha by (destruct (Hdec a); tauto).
  eapply cell_refs_mono; [|exact (A Ha)]. intros r Hr Hnr. auto.
Qed.

Lemma deepcopy_independent h a b h' ops t : no_dangling h ->
  deepcopy h a = (Ok (PRef b), h') -> legal_run h' ops ->
  (avoids (fun r => length h <= r < length h') ops ->
   reify (run h' ops) t (SObj (PRef b)) = reify h t (SObj (PRef a))) /\
  (avoids (fun r => r < length h) ops ->
   reify (run h' ops) t (SObj (PRef a)) = reify h t (SObj (PRef a))).
Proof.
  intros Hd H Hl.
  assert (a < length h) as Ha.
  { unfold deepcopy in H. destruct (nth_error h a) eqn:E; [|discriminate].
    apply nth_error_Some. congruence. }
  assert (h' = h ++ map (shift_cell (length h)) h /\ b = a + length h) as (-> & ->).
  { unfold deepcopy in H. destruct (nth_error h a); [|discriminate]. split; congruence. }
  rewrite app_length, map_length. split; intros Hav.
  - rewrite (apart_keeps _ (in_copy (length h))); auto.
    + apply (reify_shift h t (SObj (PRef a))).
    + apply copy_no_dangling, Hd.
    + apply copy_apart, Hd.
    + unfold in_copy. intros r Hr. rewrite app_length, map_length. lia.
    + unfold in_copy. lia.
  - rewrite <- (deepcopy_original h a t Hd Ha). rewrite H. cbn [snd].
    apply (reify_frame (below (length h))).
    + intros r Hr. apply run_avoids with (P := below (length h)); auto.
      * apply copy_no_dangling, Hd.
      * unfold below. intros x Hx. rewrite app_length. lia.
      * intros x c Hx Hn. unfold below in *.
        assert (x < length (h ++ map (shift_cell (length h)) h)) as Hx2
          by (apply nth_error_Some; congruence).
        rewrite app_length, map_length in Hx2.
        eapply cell_refs_mono; [|exact (proj1 (copy_apart h Hd x c Hx) ltac:(unfold in_copy; lia))].
        unfold in_copy. intros y Hy. lia.
    + intros x c Hx Hb. unfold below in *.
      rewrite nth_error_app1 in Hx by exact Hb. exact (Hd x c Hx).
    + exact Ha.
Qed.
