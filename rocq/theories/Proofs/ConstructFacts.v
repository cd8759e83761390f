(** The constructor of messages. *)
From Coq Require Import String.
From Verif.Base Require Import Prelude.
From Verif.Model Require Import Types Codec Prim ObjectApi.
From Verif.Spec Require Import PrimSpec ObjectSpec ConstructSpec.
From Verif.Proofs Require Import CodecFacts PrimFacts ObjectFacts ObjectTop ObjectUnions.
Open Scope list_scope.

Lemma private_iff nm : private nm = true <-> underscored nm.
Proof.
  unfold private, underscored. split.
  - destruct nm as [|c r]; [discriminate|]. intros H. exists r. f_equal.
    destruct c as [[] [] [] [] [] [] [] []]; try discriminate. reflexivity.
  - intros (r & ->). reflexivity.
Qed.
Lemma not_private nm : ~ underscored nm -> private nm = false.
Proof. intros H. destruct (private nm) eqn:E; [destruct (H (proj1 (private_iff nm) E))|reflexivity]. Qed.

Lemma init_assigned a h kw h' : assigned a h kw h' -> forall post, init_fields h a (kw ++ post) = init_fields h' a post.
Proof.
  induction 1 as [h|h nm v w h1 kw h2 U E A IH]; intros post; [reflexivity|]. cbn [app init_fields].
  rewrite (not_private nm U). cbn [step] in E. rewrite E. apply IH.
Qed.

Lemma constructed h t kw : (exists nm u fs cs, t = AComp nm u fs cs) ->
  exists a h1, step h (ONew t []) = (Ok (PRef a), h1) /\
    (forall h2, assigned a h1 kw h2 -> step h (ONew t kw) = (Ok (PRef a), h2)) /\
    (forall pre nm v post h2, kw = pre ++ (nm, v) :: post -> assigned a h1 pre h2 ->
      (underscored nm -> step h (ONew t kw) = (Err NameError, h2)) /\
      (forall e h3, ~ underscored nm -> step h2 (OSet a nm v) = (Err e, h3) -> step h (ONew t kw) = (Err e, h3))).
Proof.
  intros T. destruct (new_default h t T) as (a & h1 & E & _). destruct T as (nm0 & u & fs & cs & ->).
  exists a, h1. split; [exact E|]. set (t := AComp nm0 u fs cs) in *. cbn [step] in *.
  assert (forall k, new_object h t k = init_fields h1 a k) as N.
  { intros k. unfold new_object in *. unfold t in *. destruct (alloc (AComp nm0 u fs cs) h) as [x h0].
    destruct x as [| |[| | | | | |b]]; try discriminate. cbn [init_fields] in E. injection E as -> ->. reflexivity. }
  rewrite N. split.
  - intros h2 A. rewrite <- (app_nil_r kw), (init_assigned a h1 kw h2 A []). reflexivity.
  - intros pre nm v post h2 -> A. rewrite (init_assigned a h1 pre h2 A). cbn [init_fields]. split.
    + intros U. rewrite (proj2 (private_iff nm) U). reflexivity.
    + intros e h3 U S. rewrite (not_private nm U), S. reflexivity.
Qed.

Lemma find_distinct (fs : list (string * atype)) f g i j t t' : f <> g ->
  find_field fs f = Some (i, t) -> find_field fs g = Some (j, t') -> i <> j.
Proof.
  intros D E1 E2 <-. unfold find_field in *.
  pose proof (find_field_in fs f i t E1) as H1. pose proof (find_field_in fs g i t' E2) as H2. congruence.
Qed.

Lemma list_set_twice {A} (l : list A) : forall i x y, list_set (list_set l i x) i y = list_set l i y.
Proof. induction l as [|z l IH]; intros [|i] x y; cbn; congruence. Qed.
Lemma put_put h a c c' : put (put h a c) a c' = put h a c'.
Proof. apply list_set_twice. Qed.

Section Struct.
  Variables (a d : addr) (nm : string) (fs : list (string * atype)) (cs : list (string * Z)) (act : option string) (extra : list (string * pyval)).

  Lemma init_ints kw : forall h slots,
    nth_error h a = Some (CComp nm false fs cs d act extra) -> nth_error h d = Some (CDict slots) -> List.length slots = List.length fs ->
    Forall (integer_for fs cs) kw -> NoDup (map fst kw) ->
    exists slots', assigned a h kw (put h d (CDict slots')) /\ List.length slots' = List.length fs /\
      (forall f z i k n cm, In (f, PInt z) kw -> find_field fs f = Some (i, APrim k n cm) ->
         exists b, nth_error slots' i = Some (SPrim b) /\ get_int k n b = Some z) /\
      (forall f i ft, find_field fs f = Some (i, ft) -> ~ In f (map fst kw) -> nth_error slots' i = nth_error slots i).
  Proof.
    induction kw as [|[f v] kw IH]; intros h slots Ea Ed L F ND.
    { exists slots. rewrite put_id by exact Ed. split; [constructor|]. split; [exact L|]. split; [intros ? ? ? ? ? ? []|auto]. }
    apply Forall_cons_iff in F as ((U & C & i & k & n & cm & z & Ef & Ht & Hr & Ev) & F). cbn [fst snd] in U, C, Ef, Ev. subst v.
    cbn [map fst] in ND. apply NoDup_cons_iff in ND as (NI & ND).
    destruct (assign_read k n cm z Ht Hr) as (b & Es & Eg).
    assert (i < List.length slots)%nat as Hi.
    { rewrite L. apply nth_error_Some. rewrite (find_field_in _ _ _ _ Ef). discriminate. }
    set (s1 := list_set slots i (SPrim b)). set (h1 := put h d (CDict s1)).
    assert (d <> a) as Had by congruence.
    assert (step h (OSet a f (PInt z)) = (Ok PNone, h1)) as S1.
    { cbn [step]. unfold setattr. rewrite Ea, (dget_none _ _ C), Ef. cbn [union_blocks andb]. rewrite Ed.
      assert (prim_set h k n cm (PInt z) = Ok b) as ->; [|reflexivity]. unfold prim_set. destruct k; try exact Es. destruct Ht. }
    destruct (IH h1 s1) as (slots' & A & L' & G & K).
    { unfold h1. rewrite put_other by exact Had. exact Ea. }
    { unfold h1. apply (put_same _ _ _ _ Ed). }
    { unfold s1. rewrite list_set_length. exact L. }
    { exact F. } { exact ND. }
    unfold h1 in A. rewrite put_put in A. fold h1 in A.
    exists slots'. split; [econstructor; [exact U|exact S1|exact A]|]. split; [exact L'|]. split.
    - intros g y j k' n' cm' [E|I] Eg'.
      + injection E as <- <-. rewrite Ef in Eg'. injection Eg' as <- <- <- <-. exists b. split; [|exact Eg].
        rewrite (K f i _ Ef NI). unfold s1. apply nth_error_list_set. exact Hi.
      + exact (G g y j k' n' cm' I Eg').
    - intros g j ft Eg' NG. cbn [map fst] in NG. rewrite (K g j ft Eg'); [|intros I; apply NG; right; exact I].
      unfold s1. apply list_set_other. intros ->. apply NG. left.
      pose proof (find_field_in _ _ _ _ Ef). pose proof (find_field_in _ _ _ _ Eg'). congruence.
  Qed.
End Struct.

Lemma alloc_all_length fs : forall h, List.length (fst (alloc_all fs h)) = List.length fs.
Proof.
  induction fs as [|f fs IH]; intros h; [reflexivity|]. cbn. destruct (f h) as [s h1]. specialize (IH h1).
  destruct (alloc_all fs h1). cbn in *. lia.
Qed.

Lemma given_full h nm fs cs kw : Forall (integer_for fs cs) kw -> NoDup (map fst kw) ->
  let t := AComp nm false fs cs in
  exists a h1 h', step h (ONew t []) = (Ok (PRef a), h1) /\ step h (ONew t kw) = (Ok (PRef a), h') /\ assigned a h1 kw h' /\
    (forall f z, In (f, PInt z) kw -> step h' (OGet a f) = (Ok (PInt z), h')) /\
    (forall f, ~ In f (map fst kw) -> fst (step h' (OGet a f)) = fst (step h1 (OGet a f))) /\
    (forall b, (b < List.length h)%nat -> nth_error h' b = nth_error h b).
Proof.
  intros F ND t. destruct (constructed h t kw) as (a & h1 & E & OKc & _).
  { do 4 eexists. reflexivity. }
  destruct (new_default h t) as (a' & h1' & E' & _ & KP & LA & _). { do 4 eexists. reflexivity. }
  rewrite E in E'. injection E' as <- <-.
  assert (exists d slots, nth_error h1 a = Some (CComp nm false fs cs d None []) /\ nth_error h1 d = Some (CDict slots) /\
     List.length slots = List.length fs /\ (List.length h <= d)%nat) as (d & slots & Ea & Ed & L & LD).
  { cbn [step] in E. unfold new_object, t in E. cbn [alloc] in E.
    pose proof (alloc_all_length (map (fun f => alloc (snd f)) fs) h) as LL. rewrite map_length in LL.
    destruct (alloc_all (map (fun f => alloc (snd f)) fs) h) as [slots h0] eqn:EA. cbn [fst] in LL. cbn [init_fields] in E. injection E as <- <-.
    exists (List.length h0), slots. rewrite !nth_error_app2 by lia.
    replace (S (List.length h0) - List.length h0)%nat with 1%nat by lia. rewrite Nat.sub_diag. repeat split; auto.
    destruct (alloc_all_default fs) with (h := h) as ((tl & X) & _).
    { apply Forall_forall. intros f _. apply alloc_is_default. }
    rewrite EA in X. cbn [snd] in X. subst h0. rewrite app_length. lia. }
  destruct (init_ints a d nm fs cs None [] kw h1 slots Ea Ed L F ND) as (slots' & A & L' & G & K).
  set (h' := put h1 d (CDict slots')) in *. exists a, h1, h'. split; [exact E|]. split; [exact (OKc h' A)|]. split; [exact A|].
  assert (d <> a) as Had by congruence.
  assert (nth_error h' a = Some (CComp nm false fs cs d None [])) as Ea'.
  { unfold h'. rewrite put_other by exact Had. exact Ea. }
  assert (nth_error h' d = Some (CDict slots')) as Ed'. { apply (put_same _ _ _ _ Ed). }
  split; [|split].
  - intros f z I. pose proof (proj1 (Forall_forall _ _) F _ I) as (_ & C & i & k & n & cm & y & Ef & Ht & _ & _). cbn [fst] in C, Ef.
    destruct (G f z i k n cm I Ef) as (b & Eb & Eg). cbn [step]. unfold getattr. rewrite Ea', (dget_none _ _ C), Ef.
    cbn [union_blocks andb]. rewrite Ed', Eb. unfold prim_get. rewrite Eg. destruct k; try reflexivity. destruct Ht.
  - intros f NF. cbn [step]. unfold getattr. rewrite Ea', Ea. destruct (dget String.eqb cs f); [reflexivity|].
    destruct (find_field fs f) as [[i ft]|] eqn:Ef; [|reflexivity]. cbn [union_blocks andb]. rewrite Ed', Ed, (K f i ft Ef NF).
    destruct (nth_error slots i) as [[| |]|]; reflexivity.
  - intros b Hb. unfold h'. rewrite put_other by lia. exact (KP b Hb).
Qed.

Lemma given h nm fs cs kw : Forall (integer_for fs cs) kw -> NoDup (map fst kw) ->
  let t := AComp nm false fs cs in
  exists a h1 h', step h (ONew t []) = (Ok (PRef a), h1) /\ step h (ONew t kw) = (Ok (PRef a), h') /\
    (forall f z, In (f, PInt z) kw -> step h' (OGet a f) = (Ok (PInt z), h')) /\
    (forall f, ~ In f (map fst kw) -> fst (step h' (OGet a f)) = fst (step h1 (OGet a f))) /\
    (forall b, (b < List.length h)%nat -> nth_error h' b = nth_error h b).
Proof.
  intros F ND t. destruct (given_full h nm fs cs kw F ND) as (a & h1 & h' & A & B & _ & C). exists a, h1, h'. auto.
Qed.

(** A union takes one field. *)
Lemma union_one h nm fs cs f g v w rest : f <> g ->
  In f (map fst fs) -> In g (map fst fs) -> ~ In f (map fst cs) -> ~ In g (map fst cs) -> ~ underscored g ->
  exists e, fst (step h (ONew (AComp nm true fs cs) ((f, v) :: (g, w) :: rest))) = Err e.
Proof.
  intros D If Ig Cf Cg Ug. set (t := AComp nm true fs cs).
  cbn [step]. pose proof (constructed h t [] ltac:(do 4 eexists; reflexivity)) as (a & h1 & E & _).
  cbn [step] in E. unfold new_object, t in *. destruct (alloc (AComp nm true fs cs) h) as [x h0] eqn:EA.
  destruct x as [| |[| | | | | |b]]; try discriminate. cbn [init_fields] in E. injection E as -> ->. cbn [init_fields].
  destruct (private f); [eexists; reflexivity|].
  assert (object_at h1 a (AComp nm true fs cs) None) as O1.
  { cbn [alloc] in EA. destruct (alloc_all (map (fun f => alloc (snd f)) fs) h) as [slots hh]. injection EA as <- <-.
    exists (List.length hh), []. rewrite nth_error_app2 by lia.
    replace (S (List.length hh) - List.length hh)%nat with 1%nat by lia. reflexivity. }
  destruct (access_selects h1 a nm fs cs None f v O1 (or_introl eq_refl) If Cf) as (_ & O2). cbn [step] in O2.
  destruct (setattr h1 a f v) as [[r|e] h2] eqn:ES; [|eexists; reflexivity].
  rewrite (not_private g Ug). cbn [snd] in O2.
  destruct (others_blocked h2 a nm fs cs f g w O2 Ig Cg) as (_ & B); [congruence|]. cbn [step] in B. rewrite B. eexists. reflexivity.
Qed.
