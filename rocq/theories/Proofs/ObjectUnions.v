(** Unions, constants, nested messages, new objects. *)
From Coq Require Import String.
From Verif.Base Require Import Prelude Bits.
From Verif.Model Require Import BitCodec Types Codec Prim Float Utf8 ObjectApi.
From Verif.Spec Require Import PrimSpec CodecSpec ObjectSpec.
From Verif.Proofs Require Import CodecFacts CodecTop PrimFacts ObjectFacts ObjectTop ObjectArrays.
Open Scope list_scope.

Lemma find_field_in fs nm i t : find_field fs nm = Some (i, t) -> nth_error fs i = Some (nm, t).
Proof.
  revert i. induction fs as [|[n t'] fs IH]; intros i H; cbn in H; [discriminate|].
  destruct (String.eqb nm n) eqn:E.
  - apply String.eqb_eq in E. subst. injection H as <- <-. reflexivity.
  - destruct (find_field fs nm) as [[j t2]|]; [|discriminate]. injection H as <- <-.
    cbn. apply IH. reflexivity.
Qed.
Lemma find_field_some fs nm : In nm (map fst fs) -> exists i t, find_field fs nm = Some (i, t).
Proof.
  induction fs as [|[n t'] fs IH]; intros H; [destruct H|]. cbn.
  destruct (String.eqb nm n) eqn:E; [eauto|].
  destruct H as [H|H]; [cbn in H; subst; rewrite String.eqb_refl in E; discriminate|].
  destruct (IH H) as (i & t & ->). eauto.
Qed.
Lemma find_field_none fs nm : ~ In nm (map fst fs) -> find_field fs nm = None.
Proof.
  intros H. destruct (find_field fs nm) as [[i t]|] eqn:E; [|reflexivity].
  apply find_field_in in E. exfalso. apply H.
  apply (in_map fst) with (x := (nm, t)). eapply nth_error_In. exact E.
Qed.
Lemma dget_none (cs : list (string * Z)) nm : ~ In nm (map fst cs) -> dget String.eqb cs nm = None.
Proof.
  induction cs as [|[n z] cs IH]; intros H; [reflexivity|]. cbn.
  destruct (String.eqb nm n) eqn:E.
  - apply String.eqb_eq in E. subst. exfalso. apply H. left. reflexivity.
  - apply IH. intros Hi. apply H. right. exact Hi.
Qed.

(** ** Unions *)

Lemma others_blocked h a nm fs cs f g v : object_at h a (AComp nm true fs cs) (Some f) ->
  In g (map fst fs) -> ~ In g (map fst cs) -> g <> f ->
  step h (OGet a g) = (Err AttributeError, h) /\ step h (OSet a g v) = (Err AttributeError, h).
Proof.
  intros (d & extra & E) Hg Hc Hne. destruct (find_field_some _ _ Hg) as (i & t & Ef).
  cbn [step]. unfold getattr, setattr. rewrite E, (dget_none _ _ Hc), Ef.
  cbn [union_blocks andb]. replace (String.eqb f g) with false; [split; reflexivity|].
  symmetry. apply String.eqb_neq. congruence.
Qed.

Lemma true_good h : good (fun _ => True) 0 h.
Proof.
  split; [lia|]. intros a c _ _. assert (forall r, usable (fun _ => True) 0 (length h) r) as HU.
  { intros r. left. exact I. }
  assert (forall v, val_refs (usable (fun _ => True) 0 (length h)) v) as HV.
  { induction v as [| | | |l IH| |r] using pyval_ind'; try exact I; [|apply HU].
    apply val_refs_list. exact IH. }
  destruct c; cbn.
  - apply Forall_forall. intros s _. destruct s; cbn; auto.
  - apply Forall_forall. intros s _. destruct s; cbn; auto.
  - split; [apply HU|]. apply Forall_forall. intros e _. apply HV.
Qed.
Lemma true_refs (h : heap) v : val_refs (usable (fun _ => True) 0 (length h)) v.
Proof.
  induction v as [| | | |l IH| |r] using pyval_ind'; try exact I; [|left; exact I].
  apply val_refs_list. exact IH.
Qed.

Lemma access_selects h a nm fs cs act f v : object_at h a (AComp nm true fs cs) act ->
  act = None \/ act = Some f -> In f (map fst fs) -> ~ In f (map fst cs) ->
  object_at (snd (step h (OGet a f))) a (AComp nm true fs cs) (Some f) /\
  object_at (snd (step h (OSet a f v))) a (AComp nm true fs cs) (Some f).
Proof.
  intros (d & extra & E) Ha Hf Hc. destruct (find_field_some _ _ Hf) as (i & t & Ef).
  assert (union_blocks true act f = false) as Eb.
  { destruct Ha as [->| ->]; cbn; [reflexivity|]. rewrite String.eqb_refl. reflexivity. }
  cbn [step]. unfold getattr, setattr. rewrite E, (dget_none _ _ Hc), Ef, Eb.
  set (h1 := put h a (CComp nm true fs cs d (Some f) extra)).
  assert (nth_error h1 a = Some (CComp nm true fs cs d (Some f) extra)) as E1
    by apply (put_same _ _ _ _ E).
  assert (object_at h1 a (AComp nm true fs cs) (Some f)) as K by (exists d, extra; exact E1).
  split.
  - destruct (nth_error h1 d) as [[|slots|]|]; try exact K.
    destruct (nth_error slots i) as [[| |]|]; exact K.
  - destruct (nth_error h1 d) as [[|slots|]|] eqn:Ed; try exact K.
    assert (a <> d) as Had by congruence.
    destruct t.
    + destruct (prim_set _ _ _ _ _); [|exact K]. cbn [snd]. exists d, extra.
      rewrite put_other by congruence. exact E1.
    + exact K.
    + destruct (nth_error slots i) as [[| |[| | | | | |b]]|]; try exact K.
      destruct (assign_array_sound (fun _ => True) 0 (fun _ => False) h1 b v) as (A & _).
      { apply true_good. } { left; exact I. } { apply true_refs. }
      destruct (evolves_comp _ _ _ _ _ A _ _ _ _ _ _ _ _ E1) as (act' & ex' & E2 & [D|[D|[]]]); [discriminate|].
      subst act'. exists d, ex'. exact E2.
    + destruct (negb _); [exact K|]. destruct v as [| | | | | |b]; try exact K.
      unfold copy_comp. destruct (nth_error h1 b) as [[| |]|]; try exact K.
      cbn [snd]. exists d, extra. rewrite put_other by congruence.
      rewrite nth_error_app1; [exact E1|]. apply nth_error_Some. congruence.
Qed.

Lemma constants_fixed h a nm u fs cs act c z v : object_at h a (AComp nm u fs cs) act ->
  dget String.eqb cs c = Some z ->
  step h (OSet a c v) = (Err AttributeError, h) /\ step h (OGet a c) = (Ok (PInt z), h).
Proof.
  intros (d & extra & E) Hc. cbn [step]. unfold setattr, getattr. rewrite E, Hc. auto.
Qed.

(** What a union with an active field stands for. *)
Lemma zip_some_nth {A B} (rs : list (A -> option B)) slots vs i r :
  zip_some rs slots = Some vs -> nth_error rs i = Some r ->
  exists s v, nth_error slots i = Some s /\ r s = Some v /\ nth_error vs i = Some v.
Proof.
  revert slots vs i. induction rs as [|r0 rs IH]; intros slots vs i H Hr.
  - destruct i; discriminate.
  - destruct slots as [|s slots]; [discriminate|]. cbn [zip_some] in H.
    destruct (r0 s) as [v0|] eqn:E0; [|discriminate].
    destruct (zip_some rs slots) as [vs'|] eqn:E1; [|discriminate]. injection H as <-.
    destruct i as [|i].
    + cbn in Hr. injection Hr as <-. exists s, v0. auto.
    + cbn in Hr. destruct (IH slots vs' i E1 Hr) as (s' & v' & H1 & H2 & H3). exists s', v'. auto.
Qed.
Lemma zip_content_nth cs vs i c v : nth_error cs i = Some c -> nth_error vs i = Some v ->
  nth i (zip_content cs vs) DNone = c v.
Proof.
  revert vs i. induction cs as [|c0 cs IH]; intros vs i Hc Hv.
  - destruct i; discriminate.
  - destruct vs as [|v0 vs]; [destruct i; discriminate|]. destruct i as [|i]; cbn in *.
    + congruence.
    + apply IH; assumption.
Qed.

Lemma reify_union h a nm fs cs f i ft v :
  object_at h a (AComp nm true fs cs) (Some f) -> find_field fs f = Some (i, ft) ->
  reify h (AComp nm true fs cs) (SObj (PRef a)) = Some v ->
  exists s vf, field_slot h a f = Some s /\ reify h ft s = Some vf /\
    content (erase (AComp nm true fs cs)) v = DUnion i (content (erase ft) vf).
Proof.
  intros (d & extra & E) Ef H. cbn [reify] in H. rewrite E, String.eqb_refl in H.
  cbn [andb active_known] in H. rewrite Ef in H.
  destruct (nth_error h d) as [[|slots|]|] eqn:Ed; try discriminate.
  destruct (zip_some (map (fun f0 => reify h (snd f0)) fs) slots) as [vs|] eqn:Ez; [|discriminate].
  injection H as <-. cbn [active_index]. rewrite Ef.
  pose proof (find_field_in _ _ _ _ Ef) as Hn.
  destruct (zip_some_nth _ _ _ i (reify h ft) Ez) as (s & vf & A & B & C).
  { rewrite nth_error_map, Hn. reflexivity. }
  exists s, vf. split; [|split; [exact B|]].
  - unfold field_slot. rewrite E, Ef, Ed. exact A.
  - cbn [erase content]. f_equal. apply zip_content_nth; [|exact C].
    rewrite map_map, nth_error_map, Hn. reflexivity.
Qed.

Lemma union_carried h a nm fs cs f i ft v tao :
  object_at h a (AComp nm true fs cs) (Some f) -> find_field fs f = Some (i, ft) ->
  reify h (AComp nm true fs cs) (SObj (PRef a)) = Some v ->
  wf_type (erase (AComp nm true fs cs)) -> valid (erase (AComp nm true fs cs)) v ->
  exists s vf bs v' rest, field_slot h a f = Some s /\ reify h ft s = Some vf /\
    pack (erase (AComp nm true fs cs)) tao v = Ok bs /\
    unpack (erase (AComp nm true fs cs)) tao (bits_from_bytes (bytes_from_bits bs)) = Ok (v', rest) /\
    content (erase (AComp nm true fs cs)) v' = DUnion i (content (erase ft) vf).
Proof.
  intros Ho Ef Hr Hw Hv.
  destruct (reify_union _ _ _ _ _ _ _ _ _ Ho Ef Hr) as (s & vf & A & B & C).
  destruct (pack_unpack_bytes _ _ tao Hw Hv) as (bs & v' & rest & D & E & F & _).
  exists s, vf, bs, v', rest. split; [exact A|]. split; [exact B|]. split; [exact D|].
  split; [exact E|]. rewrite F. exact C.
Qed.

Lemma put_id h a c : nth_error h a = Some c -> put h a c = h.
Proof.
  unfold put. revert a. induction h as [|x h IH]; intros a H; [destruct a; discriminate|].
  destruct a; cbn in *; [congruence|]. f_equal. apply IH. exact H.
Qed.

(** Assigning an integer to a field stores that integer there. *)
Lemma set_int_field h a nm u fs cs act f i k n cm z slots d extra :
  nth_error h a = Some (CComp nm u fs cs d act extra) -> nth_error h d = Some (CDict slots) ->
  i < length slots -> (u = true -> act = None \/ act = Some f) ->
  find_field fs f = Some (i, APrim k n cm) -> ~ In f (map fst cs) ->
  int_type k n -> representable k n z ->
  exists h' b, step h (OSet a f (PInt z)) = (Ok PNone, h') /\
    field_slot h' a f = Some (SPrim b) /\ get_int k n b = Some z /\
    step h' (OGet a f) = (Ok (PInt z), h').
Proof.
  intros E Ed Hi Ha Ef Hc Ht Hr.
  assert (union_blocks u act f = false) as Eb.
  { destruct u; [|reflexivity]. destruct (Ha eq_refl) as [->| ->]; cbn; [reflexivity|].
    rewrite String.eqb_refl. reflexivity. }
  destruct (assign_read k n cm z Ht Hr) as (b & Es & Eg).
  set (h1 := if u then put h a (CComp nm u fs cs d (Some f) extra) else h).
  assert (a <> d) as Had by congruence.
  assert (nth_error h1 d = Some (CDict slots)) as Ed1.
  { unfold h1. destruct u; [rewrite put_other by exact Had|]; exact Ed. }
  assert (exists act', nth_error h1 a = Some (CComp nm u fs cs d act' extra) /\
                       (u = true -> act' = Some f)) as (act' & E1 & Ha1).
  { unfold h1. destruct u; [exists (Some f)|exists act].
    - split; [apply (put_same _ _ _ _ E)|reflexivity].
    - split; [exact E|discriminate]. }
  assert (forall h0, prim_set h0 k n cm (PInt z) = Ok b) as Ep.
  { intros h0. unfold prim_set. destruct k; try exact Es. contradiction. }
  set (h2 := put h1 d (CDict (list_set slots i (SPrim b)))).
  assert (nth_error h2 a = Some (CComp nm u fs cs d act' extra)) as E2.
  { unfold h2. rewrite put_other by congruence. exact E1. }
  assert (nth_error h2 d = Some (CDict (list_set slots i (SPrim b)))) as Ed2
    by apply (put_same _ _ _ _ Ed1).
  assert (nth_error (list_set slots i (SPrim b)) i = Some (SPrim b)) as Ei
    by (apply nth_error_list_set; exact Hi).
  exists h2, b. split; [|split; [|split; [exact Eg|]]].
  - cbn [step]. unfold setattr. rewrite E, (dget_none _ _ Hc), Ef, Eb. fold h1. cbv zeta.
    rewrite Ed1, Ep. reflexivity.
  - unfold field_slot. rewrite E2, Ef, Ed2. exact Ei.
  - cbn [step]. unfold getattr. rewrite E2, (dget_none _ _ Hc), Ef.
    assert (union_blocks u act' f = false) as Eb2.
    { destruct u; [|reflexivity]. rewrite (Ha1 eq_refl). cbn. rewrite String.eqb_refl. reflexivity. }
    rewrite Eb2.
    assert ((if u then put h2 a (CComp nm u fs cs d (Some f) extra) else h2) = h2) as Eh.
    { destruct u; [|reflexivity]. rewrite (Ha1 eq_refl) in E2. apply put_id. exact E2. }
    rewrite Eh. cbv zeta. rewrite Ed2, Ei. cbn [prim_get].
    unfold prim_get. destruct k; try contradiction; rewrite Eg; reflexivity.
Qed.

(** An integer assigned to a union field is what is sent. *)
Lemma union_sent h a nm fs cs act f i k n cm z :
  object_at h a (AComp nm true fs cs) act -> act = None \/ act = Some f ->
  (exists s, field_slot h a f = Some s) ->
  find_field fs f = Some (i, APrim k n cm) -> ~ In f (map fst cs) ->
  int_type k n -> representable k n z ->
  exists h', step h (OSet a f (PInt z)) = (Ok PNone, h') /\
    forall v tao, reify h' (AComp nm true fs cs) (SObj (PRef a)) = Some v ->
    wf_type (erase (AComp nm true fs cs)) -> valid (erase (AComp nm true fs cs)) v ->
    exists bs v' rest b,
      pack (erase (AComp nm true fs cs)) tao v = Ok bs /\
      unpack (erase (AComp nm true fs cs)) tao (bits_from_bytes (bytes_from_bits bs)) = Ok (v', rest) /\
      content (erase (AComp nm true fs cs)) v' = DUnion i (DBits b) /\ get_int k n b = Some z.
Proof.
  intros Ho Ha (s0 & Hs0) Ef Hc Ht Hr. pose proof Ho as (d & extra & E).
  unfold field_slot in Hs0. rewrite E, Ef in Hs0.
  destruct (nth_error h d) as [[|slots|]|] eqn:Ed; try discriminate.
  assert (i < length slots) as Hi by (apply nth_error_Some; congruence).
  destruct (set_int_field h a nm true fs cs act f i k n cm z slots d extra E Ed Hi (fun _ => Ha) Ef Hc Ht Hr)
    as (h' & b & Es & Eb & Eg & _).
  exists h'. split; [exact Es|]. intros v tao Hv Hw Hval.
  assert (object_at h' a (AComp nm true fs cs) (Some f)) as Ho'.
  { replace h' with (snd (step h (OSet a f (PInt z)))) by (rewrite Es; reflexivity).
    apply (access_selects h a nm fs cs act f (PInt z) Ho Ha); [|exact Hc].
    apply (in_map fst) with (x := (f, APrim k n cm)). eapply nth_error_In. apply find_field_in. exact Ef. }
  destruct (union_carried _ _ _ _ _ _ _ _ _ tao Ho' Ef Hv Hw Hval)
    as (s & vf & bs & v' & rest & A & B & C & D & F).
  exists bs, v', rest, b. split; [exact C|]. split; [exact D|]. split; [|exact Eg].
  rewrite F. f_equal. assert (s = SPrim b) as -> by congruence. cbn [reify] in B.
  assert (vf = VPrim b) as -> by congruence. reflexivity.
Qed.

(** ** Unknown names *)

Lemma unknown_set h a t u fs cs nm f act v : t = AComp nm u fs cs -> object_at h a t act ->
  ~ In f (map fst fs) -> ~ In f (map fst cs) ->
  exists h', step h (OSet a f v) = (Ok PNone, h') /\ step h' (OGet a f) = (Ok v, h') /\
    forall t' s, reify h' t' s = reify h t' s.
Proof.
  intros -> (d & extra & E) Hf Hc.
  set (h' := put h a (CComp nm u fs cs d act (dset String.eqb extra f v))).
  assert (nth_error h' a = Some (CComp nm u fs cs d act (dset String.eqb extra f v))) as E'
    by apply (put_same _ _ _ _ E).
  exists h'. cbn [step]. unfold setattr, getattr.
  rewrite E, (dget_none _ _ Hc), (find_field_none _ _ Hf). split; [reflexivity|]. split.
  - rewrite E', (dget_none _ _ Hc), (find_field_none _ _ Hf).
    rewrite (dget_dset_same _ String.eqb_eq). reflexivity.
  - assert (forall b, nth_error h' b = nth_error h b \/
      (b = a /\ nth_error h' b = Some (CComp nm u fs cs d act (dset String.eqb extra f v)) /\
       nth_error h b = Some (CComp nm u fs cs d act extra))) as HN.
    { intros b. destruct (Nat.eq_dec b a) as [->|Hne]; [right; auto|left].
      unfold h'. apply put_other. congruence. }
    clearbody h'. clear E E'.
    induction t' as [k n cm|n|dyn et mx IH|nm' u' fs' cs' IH] using atype_ind'; intros s.
    + reflexivity.
    + reflexivity.
    + cbn [reify]. destruct s as [| |[| | | | | |b]]; auto.
      destruct (HN b) as [->|(_ & -> & ->)]; [|reflexivity].
      destruct (nth_error h b) as [[dyn' et' mx' items| |]|]; auto.
      rewrite (map_ext _ (reify h et)) by (intros; apply IH). reflexivity.
    + cbn [reify]. destruct s as [| |[| | | | | |b]]; auto.
      assert (forall d0, match nth_error h' d0 with
        | Some (CDict slots) => zip_some (map (fun f0 => reify h' (snd f0)) fs') slots
        | _ => None end = match nth_error h d0 with
        | Some (CDict slots) => zip_some (map (fun f0 => reify h (snd f0)) fs') slots
        | _ => None end) as HZ.
      { intros d0. destruct (HN d0) as [->|(_ & -> & ->)]; [|reflexivity].
        destruct (nth_error h d0) as [[|slots|]|]; auto.
        clear -IH. revert slots. induction IH as [|f0 fs0 Hf0 H IHf]; intros slots; [reflexivity|].
        destruct slots as [|s slots]; [reflexivity|]. cbn [map zip_some].
        rewrite (Hf0 s), (IHf slots). reflexivity. }
      assert (forall d0 act0, match nth_error h' d0 with
        | Some (CDict slots) =>
            match zip_some (map (fun f0 => reify h' (snd f0)) fs') slots with
            | Some vs => Some (VComp vs (active_index fs' act0)) | None => None end
        | _ => None end = match nth_error h d0 with
        | Some (CDict slots) =>
            match zip_some (map (fun f0 => reify h (snd f0)) fs') slots with
            | Some vs => Some (VComp vs (active_index fs' act0)) | None => None end
        | _ => None end) as HZ2.
      { intros d0 act0. specialize (HZ d0).
        destruct (nth_error h' d0) as [[|sl1|]|]; destruct (nth_error h d0) as [[|sl2|]|];
          try rewrite HZ; try rewrite <- HZ; reflexivity. }
      destruct (HN b) as [->|(_ & -> & ->)].
      * destruct (nth_error h b) as [[| |nm2 u2 fs2 cs2 d2 act2 ex2]|]; auto.
        destruct (String.eqb nm' nm2 && active_known _ _); [apply HZ2|reflexivity].
      * destruct (String.eqb nm' nm && active_known _ _); [apply HZ2|reflexivity].
Qed.

(** ** Nested messages *)

Lemma setattr_comp_shape h a nm u fs cs d act extra f i full' u' fs' cs' b w h' :
  nth_error h a = Some (CComp nm u fs cs d act extra) ->
  find_field fs f = Some (i, AComp full' u' fs' cs') ->
  setattr h a f (PRef b) = (Ok w, h') ->
  exists h1 slots cb, h1 = (if u then put h a (CComp nm u fs cs d (Some f) extra) else h) /\
    nth_error h1 d = Some (CDict slots) /\ nth_error h1 b = Some cb /\
    (exists u2 fs2 cs2 d2 act2 ex2, cb = CComp full' u2 fs2 cs2 d2 act2 ex2) /\
    h' = put (h1 ++ [cb]) d (CDict (list_set slots i (SObj (PRef (length h1))))).
Proof.
  intros E Ef H. unfold setattr in H. rewrite E, Ef in H.
  destruct (dget String.eqb cs f); [discriminate|].
  destruct (union_blocks u act f); [discriminate|].
  set (h1 := if u then put h a (CComp nm u fs cs d (Some f) extra) else h) in *. cbv zeta in H.
  destruct (nth_error h1 d) as [[|slots|]|] eqn:Ed; try discriminate.
  destruct (is_comp_named h1 (PRef b) full') eqn:En; cbn [negb] in H; [|discriminate].
  unfold is_comp_named in En. unfold copy_comp in H.
  destruct (nth_error h1 b) as [[| |full2 u2 fs2 cs2 d2 act2 ex2]|] eqn:Eb; try discriminate.
  apply String.eqb_eq in En. subst full2.
  exists h1, slots, (CComp full' u2 fs2 cs2 d2 act2 ex2). split; [reflexivity|].
  split; [exact Ed|]. split; [exact Eb|]. split; [eauto 10|]. congruence.
Qed.

(** Right after the assignment the field stands for the same content as the
    assigned object. *)
Lemma assigned_same h a nm u fs cs d act extra f i full' u' fs' cs' b w h' slots :
  nth_error h a = Some (CComp nm u fs cs d act extra) -> nth_error h d = Some (CDict slots) ->
  i < length slots ->
  find_field fs f = Some (i, AComp full' u' fs' cs') ->
  setattr h a f (PRef b) = (Ok w, h') ->
  exists s, field_slot h' a f = Some s /\
    reify h' (AComp full' u' fs' cs') s = reify h' (AComp full' u' fs' cs') (SObj (PRef b)).
Proof.
  intros E Ed Hi Ef H.
  destruct (setattr_comp_shape _ _ _ _ _ _ _ _ _ _ _ _ _ _ _ _ _ _ E Ef H)
    as (h1 & slots1 & cb & E1 & Ed1 & Eb & (u2 & fs2 & cs2 & d2 & act2 & ex2 & ->) & Eh).
  assert (a <> d) as Had by congruence.
  assert (slots1 = slots) as ->.
  { subst h1. destruct u; [rewrite put_other in Ed1 by exact Had|]; congruence. }
  set (c := length h1) in *.
  set (cell := CComp full' u2 fs2 cs2 d2 act2 ex2) in *.
  assert (d < length h1) as Hd by (apply nth_error_Some; congruence).
  assert (nth_error (h1 ++ [cell]) d = Some (CDict slots)) as Ed2
    by (rewrite nth_error_app1 by exact Hd; exact Ed1).
  assert (nth_error h' c = Some cell) as Ec.
  { subst h'. rewrite put_other by (unfold c; lia).
    rewrite nth_error_app2 by (unfold c; lia). unfold c. rewrite Nat.sub_diag. reflexivity. }
  assert (nth_error h' b = Some cell) as Eb2.
  { subst h'. rewrite put_other by (unfold cell in Eb; congruence).
    rewrite nth_error_app1; [exact Eb|]. apply nth_error_Some. congruence. }
  assert (nth_error h' d = Some (CDict (list_set slots i (SObj (PRef c))))) as Ed3.
  { subst h'. apply (put_same _ _ _ _ Ed2). }
  assert (exists act', nth_error h' a = Some (CComp nm u fs cs d act' extra)) as (act' & Ea).
  { assert (exists act', nth_error h1 a = Some (CComp nm u fs cs d act' extra)) as (act' & Ea).
    { subst h1. destruct u; [eexists; apply (put_same _ _ _ _ E)|eauto]. }
    exists act'. subst h'. rewrite put_other by congruence.
    rewrite nth_error_app1; [exact Ea|]. apply nth_error_Some. congruence. }
  exists (SObj (PRef c)). split.
  - unfold field_slot. rewrite Ea, Ef, Ed3. apply nth_error_list_set. exact Hi.
  - cbn [reify]. rewrite Ec, Eb2. reflexivity.
Qed.

Lemma cell_refs_and (P Q : addr -> Prop) c : cell_refs P c -> cell_refs Q c ->
  cell_refs (fun r => P r /\ Q r) c.
Proof.
  assert (forall v, val_refs P v -> val_refs Q v -> val_refs (fun r => P r /\ Q r) v) as HV.
  { induction v as [| | | |l IH| |r] using pyval_ind'; try (intros; exact I).
    - rewrite !val_refs_list. intros HP HQ. rewrite Forall_forall in *. auto.
    - cbn. auto. }
  assert (forall l, Forall (slot_refs P) l -> Forall (slot_refs Q) l ->
    Forall (slot_refs (fun r => P r /\ Q r)) l) as HS.
  { intros l HP HQ. rewrite Forall_forall in *. intros s Hs. specialize (HP s Hs). specialize (HQ s Hs).
    destruct s; cbn in *; auto. }
  destruct c; cbn; auto.
  intros (A & B) (C & D). split; [auto|]. rewrite Forall_forall in *. auto.
Qed.

Lemma deep_assignment h (P : addr -> Prop) outer inner c h1 f w h2 ops t :
  no_dangling h -> apart h P -> (forall r, P r \/ ~ P r) -> (forall r, P r -> r < length h) ->
  P outer -> deepcopy h inner = (Ok (PRef c), h1) ->
  setattr h1 outer f (PRef c) = (Ok w, h2) ->
  legal_run h2 ops -> avoids (fun r => P r \/ length h <= r < length h2) ops ->
  reify (run h2 ops) t (SObj (PRef outer)) = reify h2 t (SObj (PRef outer)).
Proof.
  intros Hd HA Hdec HP Ho Hc Hs Hl Hav.
  assert (h1 = h ++ map (shift_cell (length h)) h /\ c = inner + length h /\ inner < length h) as (Eh1 & Ec & Hin).
  { unfold deepcopy in Hc. destruct (nth_error h inner) eqn:E; [|discriminate].
    split; [congruence|]. split; [congruence|]. apply nth_error_Some. congruence. }
  assert (no_dangling h1) as Hd1 by (rewrite Eh1; apply copy_no_dangling; exact Hd).
  assert (length h1 = length h + length h) as L1 by (rewrite Eh1, app_length, map_length; reflexivity).
  set (ok := fun r => P r \/ length h <= r).
  assert (good ok (length h1) h1) as G1.
  { split; [lia|]. intros a c0 Ha Hu. apply (cell_refs_mono ok); [intros r Hr; left; exact Hr|].
    rewrite Eh1 in Ha.
    destruct (Nat.lt_ge_cases a (length h)) as [Hlt|Hge].
    - rewrite nth_error_app1 in Ha by exact Hlt.
      destruct Hu as [[Hu|Hu]|Hu]; [|lia|lia].
      eapply cell_refs_mono; [|exact (proj1 (HA _ _ Ha) Hu)]. intros r Hr. left. exact Hr.
    - rewrite nth_error_app2, nth_error_map in Ha by exact Hge.
      destruct (nth_error h (a - length h)); [|discriminate]. injection Ha as <-.
      apply shift_cell_refs. intros r Hr. right. exact Hr. }
  destruct (setattr_sound ok (length h1) (fun _ => False) h1 outer f (PRef c) G1) as (A & _).
  { left. left. exact Ho. }
  { cbn. left. right. lia. }
  rewrite Hs in A. cbn [snd] in A.
  pose proof (evolves_length _ _ _ _ _ A) as L2.
  assert (no_dangling h2) as Hd2.
  { replace h2 with (snd (step h1 (OSet outer f (PRef c)))) by (cbn [step]; rewrite Hs; reflexivity).
    apply step_legal; [exact Hd1|]. cbn. unfold below. specialize (HP _ Ho). lia. }
  destruct (evolves_good _ _ _ _ _ A G1) as (_ & G2).
  set (Q := fun r => P r \/ length h <= r < length h2).
  apply (apart_keeps h2 Q); auto.
  - intros a c0 Ha. assert (a < length h2) as Hlt by (apply nth_error_Some; congruence). split.
    + intros HQ. eapply cell_refs_mono; [|apply cell_refs_and; [exact (G2 a c0 Ha ltac:(left; unfold ok; destruct HQ; [left; assumption|right; lia]))|exact (Hd2 a c0 Ha)]].
      unfold Q. intros r ([[Hr|Hr]|Hr] & Hr2); [left; exact Hr|right; lia|right; lia].
    + intros HnQ. unfold Q in HnQ.
      assert (a < length h) as Ha2 by lia.
      assert (nth_error h2 a = nth_error h a) as Eq.
      { rewrite (evolves_frame _ _ _ _ _ A); [|lia|].
        - rewrite Eh1. apply nth_error_app1. exact Ha2.
        - intros [[Hu|Hu]|Hu]; [apply HnQ; left; exact Hu|lia|lia]. }
      rewrite Eq in Ha.
      eapply cell_refs_mono; [|apply cell_refs_and; [exact (proj2 (HA _ _ Ha) ltac:(tauto))|exact (Hd _ _ Ha)]].
      unfold Q. intros r (Hr1 & Hr2) [Hr|Hr]; [auto|lia].
  - unfold Q. intros r [Hr|Hr]; [apply HP in Hr; lia|lia].
  - left. exact Ho.
Qed.

(** ** New objects *)

Definition extends (h h' : heap) : Prop := exists tl, h' = h ++ tl.
Lemma extends_refl h : extends h h.
Proof. exists []. rewrite app_nil_r. reflexivity. Qed.
Lemma extends_trans h1 h2 h3 : extends h1 h2 -> extends h2 h3 -> extends h1 h3.
Proof. intros (a & ->) (b & ->). exists (a ++ b). rewrite app_assoc. reflexivity. Qed.
Lemma extends_nth h h' a c : extends h h' -> nth_error h a = Some c -> nth_error h' a = Some c.
Proof.
  intros (tl & ->) H. rewrite nth_error_app1; [exact H|]. apply nth_error_Some. congruence.
Qed.

Definition alloc_default (f : heap -> slot * heap) (t : atype) : Prop :=
  forall h, extends h (snd (f h)) /\
    forall h', extends (snd (f h)) h' -> reify h' t (fst (f h)) = Some (default (erase t)).

Lemma alloc_n_default f et n : alloc_default f et -> forall h,
  extends h (snd (alloc_n f n h)) /\
  forall h', extends (snd (alloc_n f n h)) h' ->
    all_some (map (reify h' et) (fst (alloc_n f n h))) = Some (repeat (default (erase et)) n).
Proof.
  intros Hf. induction n as [|n IH]; intros h.
  - split; [apply extends_refl|reflexivity].
  - cbn [alloc_n]. destruct (Hf h) as (A & B). destruct (f h) as (s & h1). cbn [fst snd] in *.
    destruct (IH h1) as (C & D). destruct (alloc_n f n h1) as (ss & h2). cbn [fst snd] in *.
    split; [eapply extends_trans; eauto|]. intros h' Hh. cbn [map all_some repeat].
    rewrite (B h') by (eapply extends_trans; eauto). rewrite (D h' Hh). reflexivity.
Qed.

Lemma alloc_all_default (fs : list (string * atype)) :
  Forall (fun f => alloc_default (alloc (snd f)) (snd f)) fs -> forall h,
  extends h (snd (alloc_all (map (fun f => alloc (snd f)) fs) h)) /\
  forall h', extends (snd (alloc_all (map (fun f => alloc (snd f)) fs) h)) h' ->
    zip_some (map (fun f => reify h' (snd f)) fs) (fst (alloc_all (map (fun f => alloc (snd f)) fs) h))
    = Some (map (fun f => default (erase (snd f))) fs).
Proof.
  induction 1 as [|f fs Hf H IH]; intros h.
  - split; [apply extends_refl|reflexivity].
  - cbn [map alloc_all]. destruct (Hf h) as (A & B). destruct (alloc (snd f) h) as (s & h1). cbn [fst snd] in *.
    destruct (IH h1) as (C & D). destruct (alloc_all _ h1) as (ss & h2). cbn [fst snd] in *.
    split; [eapply extends_trans; eauto|]. intros h' Hh. cbn [zip_some].
    rewrite (B h') by (eapply extends_trans; eauto). rewrite (D h' Hh). reflexivity.
Qed.

Lemma alloc_is_default t : alloc_default (alloc t) t.
Proof.
  induction t as [k n cm|n|dyn et mx IH|nm u fs cs IH] using atype_ind'; intros h.
  - split; [apply extends_refl|reflexivity].
  - split; [apply extends_refl|reflexivity].
  - assert (exists items h1, alloc (AArr dyn et mx) h =
        (SObj (PRef (length h1)), h1 ++ [CArr dyn et mx items]) /\ extends h h1 /\
        forall h', extends h1 h' -> all_some (map (reify h' et) items) =
          Some (if dyn then [] else repeat (default (erase et)) mx)) as (items & h1 & E & A & B).
    { destruct dyn.
      - exists [], h. split; [reflexivity|]. split; [apply extends_refl|reflexivity].
      - destruct (alloc_n_default _ _ mx IH h) as (A & B). cbn [alloc].
        destruct (alloc_n (alloc et) mx h) as (items & h1). cbn [fst snd] in *.
        exists items, h1. split; [reflexivity|]. split; [exact A|exact B]. }
    rewrite E. cbn [fst snd]. split.
    + eapply extends_trans; [exact A|]. eexists. reflexivity.
    + intros h' Hh. cbn [reify].
      assert (nth_error (h1 ++ [CArr dyn et mx items]) (length h1) = Some (CArr dyn et mx items)) as En.
      { rewrite nth_error_app2, Nat.sub_diag by lia. reflexivity. }
      rewrite (extends_nth _ _ _ _ Hh En).
      rewrite (B h'); [destruct dyn; reflexivity|]. eapply extends_trans; [|exact Hh]. eexists. reflexivity.
  - cbn [alloc]. destruct (alloc_all_default fs IH h) as (A & B).
    destruct (alloc_all _ h) as (slots & h1). cbn [fst snd] in *. split.
    + eapply extends_trans; [exact A|]. eexists. reflexivity.
    + intros h' Hh. cbn [reify].
      assert (nth_error (h1 ++ [CDict slots; CComp nm u fs cs (length h1) None []]) (S (length h1)) =
              Some (CComp nm u fs cs (length h1) None [])) as En.
      { rewrite nth_error_app2 by lia. replace (S (length h1) - length h1) with 1 by lia. reflexivity. }
      assert (nth_error (h1 ++ [CDict slots; CComp nm u fs cs (length h1) None []]) (length h1) =
              Some (CDict slots)) as En2.
      { rewrite nth_error_app2, Nat.sub_diag by lia. reflexivity. }
      rewrite (extends_nth _ _ _ _ Hh En), String.eqb_refl, (extends_nth _ _ _ _ Hh En2).
      rewrite (B h'); [|eapply extends_trans; [|exact Hh]; eexists; reflexivity].
      cbn [active_index erase default]. rewrite map_map. reflexivity.
Qed.

Lemma default_blank t : content (erase t) (default (erase t)) = blank t.
Proof.
  induction t as [k n cm|n|dyn et mx IH|nm u fs cs IH] using atype_ind'; cbn [erase default content blank].
  - reflexivity.
  - reflexivity.
  - destruct dyn; [reflexivity|]. f_equal. induction mx as [|mx IHm]; cbn; [reflexivity|].
    rewrite IH, IHm. reflexivity.
  - assert (zip_content (map content (map (fun f => erase (snd f)) fs))
              (map default (map (fun f => erase (snd f)) fs)) = map (fun f => blank (snd f)) fs) as ->.
    { induction IH as [|f fs Hf H IHf]; cbn; [reflexivity|]. rewrite Hf, IHf. reflexivity. }
    destruct u; reflexivity.
Qed.

Lemma new_default h t : (exists nm u fs cs, t = AComp nm u fs cs) ->
  exists a h', step h (ONew t []) = (Ok (PRef a), h') /\
    (exists v, reify h' t (SObj (PRef a)) = Some v /\ content (erase t) v = blank t) /\
    (forall b, b < length h -> nth_error h' b = nth_error h b) /\
    length h <= a /\
    (forall b c, length h <= b -> nth_error h' b = Some c -> cell_refs (fun r => length h <= r < length h') c).
Proof.
  intros (nm & u & fs & cs & ->). cbn [step]. unfold new_object.
  set (t := AComp nm u fs cs).
  destruct (alloc_is_default t h) as (A & B).
  destruct (alloc_is_sound (fun _ => False) (length h) (fun _ => False) t h (le_n _)) as (C & D).
  assert (exists a h', alloc t h = (SObj (PRef a), h')) as (a & h' & E).
  { unfold t. cbn [alloc]. destruct (alloc_all _ h) as (ss & h1). eauto. }
  rewrite E in *. cbn [fst snd init_fields] in *.
  assert (forall n r, usable (fun _ => False) (length h) n r -> length h <= r < n) as HU.
  { intros n r [[]|H]. exact H. }
  exists a, h'. split; [reflexivity|].
  split; [exists (default (erase t)); split; [apply B, extends_refl|apply default_blank]|]. split.
  - intros b Hb. destruct A as (tl & ->). apply nth_error_app1. exact Hb.
  - split; [apply HU in D; lia|].
    assert (good (fun _ => False) (length h) h) as G.
    { split; [lia|]. intros b c Hc Hu. apply HU in Hu.
      assert (b < length h) by (apply nth_error_Some; congruence). lia. }
    destruct (evolves_good _ _ _ _ _ C G) as (_ & G2).
    intros b c Hb Hc. eapply cell_refs_mono; [apply HU|]. apply (G2 b c Hc). right.
    split; [exact Hb|]. apply nth_error_Some. congruence.
Qed.
