(** Properties of giving indices to motor controllers. *)
From Verif.Base Require Import Prelude.
From Verif.Model Require Import EscEnum.
From Verif.Spec Require Import EnumSpec.
From Verif.Proofs Require Import EnumFacts.
Local Open Scope nat_scope.

(** C127. When the function returns the list [ns] of nodes with their
    parameters, they are the motor controllers, each once. Exactly this was
    asked of them: to begin; then of the [k]-th of the list to stop, to set the
    parameter that it indicated to [k], and to save it. All of it was
    confirmed, in this order. *)
Theorem C127_assigned : forall esc timeout start spins,
  e_place (enumerate esc timeout start spins) = Returned ->
  exists ns bs, e_done (enumerate esc timeout start spins) = map fst ns /\
    NoDup (map fst ns) /\ (forall n, In n (map fst ns) <-> In n esc) /\ Permutation bs esc /\
    (forall n name, In (n, name) ns -> In (Indicated n name) (happened spins)) /\
    asked (e_log (enumerate esc timeout start spins)) = map (fun n => AskBegin n timeout) esc ++ rounds round_asked 0 ns /\
    told (e_log (enumerate esc timeout start spins)) = map Begun bs ++ rounds round_told 0 ns.
Proof. exact enum_returned. Qed.
Print Assumptions C127_assigned.

(** However it goes, indices are given out in order, and none twice, and no
    node gets two. *)
Theorem C127_indices : forall esc timeout start spins,
  let g := indices (e_log (enumerate esc timeout start spins)) in
  NoDup (map fst g) /\ map snd g = map Z.of_nat (seq 0 (length g)).
Proof. exact enum_indices. Qed.
Print Assumptions C127_indices.

(** While it has not ended it waits for the answer to a request, or for an
    indication. *)
Theorem C127_waits : forall esc timeout start spins, ~ over (enumerate esc timeout start spins) ->
  (e_place (enumerate esc timeout start spins) = Listening /\ e_heard (enumerate esc timeout start spins) = None) \/
  e_waiting (enumerate esc timeout start spins) <> [].
Proof. exact enum_waits. Qed.
Print Assumptions C127_waits.

(** In the first case it ends after the deadline. *)
Theorem C127_deadline : forall esc timeout start spins hs t,
  e_place (enumerate esc timeout start spins) = Listening -> (start + timeout < t)%Z ->
  over (enumerate esc timeout start (spins ++ [(hs, t)])).
Proof. exact enum_deadline. Qed.
Print Assumptions C127_deadline.

(** In the second it ends if there is no answer. *)
Theorem C127_unanswered : forall esc timeout start spins j hs t, ~ over (enumerate esc timeout start spins) ->
  j < length (e_waiting (enumerate esc timeout start spins)) ->
  e_place (enumerate esc timeout start (spins ++ [(Answered j None :: hs, t)])) = Raised UserException.
Proof. exact enum_unanswered. Qed.
Print Assumptions C127_unanswered.

(** Full claim: if the motor controllers answer and give their indications in
    time, the function returns them in the order of the indications. So it is
    if no other node gives one. *)
Theorem C127_complete_partial : forall esc timeout start t ns,
  (t <= start + timeout)%Z -> NoDup esc -> Permutation (map fst ns) esc ->
  e_place (enumerate esc timeout start (polite t esc ns)) = Returned /\
  e_done (enumerate esc timeout start (polite t esc ns)) = map fst ns.
Proof. exact enum_polite. Qed.
Print Assumptions C127_complete_partial.

(** Nodes 10 and 11 are motor controllers; node 99, which is none, gives an
    indication, and gets index 0. Whatever happens after this, the function
    never returns. *)
Definition stray : list (list happening * Z) :=
  [([Answered 0 (Some fine)], 1%Z); ([Answered 0 (Some fine)], 1%Z); ([Indicated 99 [120]%N], 2%Z); ([Answered 0 (Some fine)], 3%Z);
   ([Answered 0 (Some (Reply true [120]%N 0))], 4%Z); ([Answered 0 (Some fine)], 5%Z)].
Theorem C127_stray_refuted : exists spins,
  e_place (enumerate [10; 11]%N 60 0 spins) = Listening /\ e_done (enumerate [10; 11]%N 60 0 spins) = [99%N] /\
  forall more, e_place (enumerate [10; 11]%N 60 0 (spins ++ more)) <> Returned.
Proof.
  assert (D : e_done (enumerate [10; 11]%N 60 0 stray) = [99%N]) by (vm_compute; reflexivity).
  exists stray. split; [vm_compute; reflexivity|]. split; [exact D|]. apply (enum_foreign [10; 11]%N 60 0 stray 99).
  - rewrite D. left. reflexivity.
  - intros [E|[E|[]]]; discriminate.
Qed.
Print Assumptions C127_stray_refuted.

(** Two indications in one call of [spin]: the second node gets the index. *)
Definition both : list (list happening * Z) :=
  [([Answered 1 (Some fine); Answered 0 (Some fine)], 1%Z); ([Indicated 10 [120]%N; Indicated 11 [121]%N], 2%Z)] ++
  polite_rounds 3 0 [(11, [121]); (10, [120])]%N.
Example C127_both : e_place (enumerate [10; 11]%N 60 0 both) = Returned /\ e_waiting (enumerate [10; 11]%N 60 0 both) = [] /\
  e_done (enumerate [10; 11]%N 60 0 both) = [11; 10]%N.
Proof. vm_compute. repeat split; reflexivity. Qed.
Example C127_polite : e_place (enumerate [10; 11]%N 60 0 (polite 3 [10; 11] [(11, [121]); (10, [120])])%N) = Returned /\
  e_done (enumerate [10; 11]%N 60 0 (polite 3 [10; 11] [(11, [121]); (10, [120])])%N) = [11; 10]%N /\
  indices (e_log (enumerate [10; 11]%N 60 0 (polite 3 [10; 11] [(11, [121]); (10, [120])])%N)) = [(11, 0%Z); (10, 1%Z)]%N.
Proof. vm_compute. repeat split; reflexivity. Qed.
Example C127_polite_applies : NoDup [10; 11]%N /\ Permutation (map fst [(11, [121]); (10, [120])]%N) [10; 11]%N.
Proof. split; [repeat constructor; cbn; intuition discriminate|apply perm_swap]. Qed.
Example C127_waiting : ~ over (enumerate [10; 11]%N 60 0 [([Answered 1 (Some fine)], 1%Z)]) /\
  e_waiting (enumerate [10; 11]%N 60 0 [([Answered 1 (Some fine)], 1%Z)]) = [Pending 10 CBegin].
Proof. unfold over. split; [vm_compute; intros H; exact H|vm_compute; reflexivity]. Qed.
