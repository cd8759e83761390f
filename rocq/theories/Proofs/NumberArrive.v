(** Numbers written by the sender and read by the receiver. *)
From Coq Require Import String.
From Verif.Base Require Import Prelude Bits.
From Verif.Model Require Import BitCodec Types Codec Prim Float Utf8 ObjectApi ObjectUnpack.
From Verif.Spec Require Import PrimSpec CodecSpec FloatSpec SendableSpec ReceiveSpec ObjectSpec NumberSpec.
From Verif.Proofs Require Import CodecFacts ObjectFacts ObjectTop ObjectUnions ObjectTyping ObjectInv ObjectSend ObjectLoad ObjectLoadInv ObjectView ObjectReceive NumberFacts.
Open Scope list_scope.
Local Open Scope nat_scope.

Section Arrive.
  Variable env : catalogue.

  Lemma any_number_arrives es a nm u fs cs act f i k n cm x v tao bs es' pad :
    let h := history es in let t := AComp nm u fs cs in
    object_at h a t act -> open_field h a f -> (exists s, field_slot h a f = Some s) ->
    find_field fs f = Some (i, APrim k n cm) -> ~ In f (map fst cs) -> number_for k n x -> doubles x ->
    let es1 := es ++ [Did (OSet a f x)] in
    Forall (typed_happening env) es -> Forall (typed_happening env) es' -> distinct_names t ->
    reify (history es1) t (SObj (PRef a)) = Some v -> valid (erase t) v -> selected (erase t) v ->
    pack (erase t) tao v = Ok bs -> (tao = true -> List.length pad < 8) ->
    exists b h' w, receive (history es') t tao (bs ++ pad) = (Ok b, h') /\ fst (step h' (OGet b f)) = Ok w /\ number_stored k n cm x w.
  Proof.
    intros h t (d & extra & E) Ho (s & Hs) Ef Hc Hx Dx es1 F F' DN R VA SE P LP.
    unfold field_slot in Hs. rewrite E, Ef in Hs. destruct (nth_error h d) as [[|slots|]|] eqn:Ed; try discriminate.
    destruct (set_number_field h a nm u fs cs act f i k n cm x slots d extra) as (h1 & w & S1 & S2 & ST & _); try assumption.
    { apply nth_error_Some. congruence. }
    { intros Hu. exact (Ho _ _ _ _ _ _ _ E Hu). }
    assert (history es1 = h1) as H1.
    { unfold es1, history. rewrite fold_left_app. cbn [fold_left happen]. fold (history es). fold h. rewrite S1. reflexivity. }
    assert (Forall (typed_happening env) es1) as F1.
    { apply Forall_app. split; [exact F|]. constructor; [exact Dx|constructor]. }
    assert (exists d1 act1 extra1, nth_error (history es1) a = Some (CComp nm u fs cs d1 act1 extra1)) as (d1 & act1 & extra1 & E1).
    { unfold t in R. cbn [reify] in R. destruct (nth_error (history es1) a) as [[| |nm' u' fs' cs' d1 act1 extra1]|] eqn:E1; try discriminate.
      rewrite H1 in E1.
      destruct (String.eqb nm nm') eqn:EN; cbn [andb] in R; [|discriminate]. apply String.eqb_eq in EN as <-.
      destruct (history_inv env es F) as (T & V). destruct (history_inv env es1 F1) as (T1 & V1).
      destruct (known_same env _ _ _ _ _ _ _ (proj1 (V _ _ E)) (proj1 (V1 _ _ ltac:(rewrite H1; exact E1)))) as (<- & <- & <-).
      eauto. }
    destruct (same_view env es1 a nm u fs cs d1 act1 extra1 v tao bs es' pad F1 F' E1 DN R VA SE P LP) as (b & h' & RC & VW).
    exists b, h', w. split; [exact RC|]. split; [|exact ST].
    specialize (VW [Attr f] (or_intror (ex_intro _ i (ex_intro _ (APrim k n cm) (conj Ef Logic.I))))).
    rewrite H1 in VW. cbn [view] in VW. rewrite S2 in VW.
    assert (exists z, w = PInt z \/ exists y, w = PFloat y) as (z & W).
    { clear - ST Hx. destruct k; cbn in ST.
      - destruct ST as (A & B). assert (nonzero x \/ ~ nonzero x) as [N|N].
        { destruct Hx as (_ & [(y & ->)|(y & ->)]); cbn; [lia|destruct y; cbn; lia || tauto]. }
        + exists 1%Z. left. auto.
        + exists 0%Z. left. auto.
      - destruct ST as (q & y & _ & -> & _). eauto.
      - destruct ST as (q & y & _ & -> & _). eauto.
      - destruct ST as (q & y & _ & -> & _). exists 0%Z. eauto. }
    destruct (step h' (OGet b f)) as [[w'|e] h2]; [|destruct W as [->|(y & ->)]; cbn [view] in VW; discriminate]. cbn [fst].
    destruct W as [->|(y & ->)]; cbn [view] in VW; injection VW as VW; destruct w'; try (injection VW as ->; reflexivity); try discriminate;
      try (destruct (nth_error h2 a0) as [[| |]|]; discriminate).
  Qed.
End Arrive.
