(** Properties of messages made with keyword arguments: C153. *)
From Coq Require Import String.
From Verif.Base Require Import Prelude.
From Verif.Model Require Import Types ObjectApi.
From Verif.Spec Require Import PrimSpec ObjectSpec ConstructSpec.
From Verif.Proofs Require Import ConstructFacts.
From Verif.Properties Require Import ObjectSendProps.
Open Scope list_scope.

(** ** C153 *)

(** Making a message with keyword arguments is making it and assigning them
    one after the other. It raises what the first assignment that is refused
    raises, and NameError at the first name with an underscore in front,
    whatever comes after it. *)
Theorem C153_as_assigned : forall h t kw, (exists nm u fs cs, t = AComp nm u fs cs) ->
  exists a h1, step h (ONew t []) = (Ok (PRef a), h1) /\
    (forall h2, assigned a h1 kw h2 -> step h (ONew t kw) = (Ok (PRef a), h2)) /\
    (forall pre nm v post h2, kw = pre ++ (nm, v) :: post -> assigned a h1 pre h2 ->
      (underscored nm -> step h (ONew t kw) = (Err NameError, h2)) /\
      (forall e h3, ~ underscored nm -> step h2 (OSet a nm v) = (Err e, h3) -> step h (ONew t kw) = (Err e, h3))).
Proof. exact constructed. Qed.
Print Assumptions C153_as_assigned.
Example C153_as_assigned_case :
  fst (step [] (ONew pt [("x", PInt 3); ("_y", PInt 1); ("LIMIT", PStr [])]%string)) = Err NameError /\
  fst (step [] (ONew msg [("name", PStr [65]%N); ("LIMIT", PInt 1); ("_y", PInt 1)]%string)) = Err AttributeError /\
  fst (step [] (ONew msg [("name", PStr [65]%N); ("pair", PList [PInt 1; PInt 2])]%string)) = Ok (PRef 6) /\
  underscored "_y" /\ ~ underscored "x".
Proof.
  split; [vm_compute; reflexivity|]. split; [vm_compute; reflexivity|]. split; [vm_compute; reflexivity|].
  split; [exists "y"%string; reflexivity|]. intros (r & E). discriminate.
Qed.

(** Integers that their fields can hold are in the message afterwards, all of
    them; the fields that were not given are as in a new message. *)
Theorem C153_given : forall h nm fs cs kw, Forall (integer_for fs cs) kw -> NoDup (map fst kw) ->
  let t := AComp nm false fs cs in
  exists a h1 h', step h (ONew t []) = (Ok (PRef a), h1) /\ step h (ONew t kw) = (Ok (PRef a), h') /\
    (forall f z, In (f, PInt z) kw -> step h' (OGet a f) = (Ok (PInt z), h')) /\
    (forall f, ~ In f (map fst kw) -> fst (step h' (OGet a f)) = fst (step h1 (OGet a f))) /\
    (forall b, (b < List.length h)%nat -> nth_error h' b = nth_error h b).
Proof. exact given. Qed.
Print Assumptions C153_given.
Definition trio_fields := [("p", APrim KUint 4 Saturated); ("q", APrim KInt 12 Truncated); ("r", APrim KBool 1 Saturated)]%string.
Definition trio_kw := [("q", PInt (-2048)); ("p", PInt 15)]%string.
Example C153_given_case : Forall (integer_for trio_fields []) trio_kw /\ NoDup (map fst trio_kw) /\
  let h' := snd (step built_heap (ONew (AComp "ns.Trio" false trio_fields []) trio_kw)) in
  map (fun f => fst (step h' (OGet 10 f))) ["p"; "q"; "r"]%string = [Ok (PInt 15); Ok (PInt (-2048)); Ok (PInt 0)].
Proof.
  split; [|split; [repeat constructor; cbn; intuition discriminate|vm_compute; reflexivity]].
  repeat constructor.
  - intros (r & E). discriminate.
  - intros [].
  - exists 1%nat, KInt, 12%nat, Truncated, (-2048)%Z. repeat split; try reflexivity; cbn; try lia; unfold int_lo, int_hi; cbn; lia.
  - intros (r & E). discriminate.
  - intros [].
  - exists 0%nat, KUint, 4%nat, Saturated, 15%Z. repeat split; try reflexivity; cbn; try lia; unfold int_lo, int_hi; cbn; lia.
Qed.

(** A union cannot be made with two fields. *)
Theorem C153_union_one : forall h nm fs cs f g v w rest, f <> g ->
  In f (map fst fs) -> In g (map fst fs) -> ~ In f (map fst cs) -> ~ In g (map fst cs) -> ~ underscored g ->
  exists e, fst (step h (ONew (AComp nm true fs cs) ((f, v) :: (g, w) :: rest))) = Err e.
Proof. exact union_one. Qed.
Print Assumptions C153_union_one.
Example C153_union_case : In "on"%string (map fst alt_fields) /\ In "level"%string (map fst alt_fields) /\
  fst (step [] (ONew alt [("on", PInt 1)]%string)) = Ok (PRef 1) /\
  fst (step [] (ONew alt [("on", PInt 1); ("level", PInt 2)]%string)) = Err AttributeError.
Proof. split; [cbn; auto|]. split; [cbn; auto|]. split; vm_compute; reflexivity. Qed.
