(** Properties of the message collector. *)
From Verif.Base Require Import Prelude.
From Verif.Model Require Import Collector.
From Verif.Spec Require Import CollectorSpec.
From Verif.Proofs Require Import CollectorFacts.
Local Open Scope Z_scope.

(** C40. An item is the latest message with the key if it is in time, and a
    KeyError otherwise. *)
Theorem C40_item : forall timeout k evs now,
  clock_to k evs now ->
  match rev (received k evs) with
  | (ts, m) :: _ =>
      (in_time timeout ts now -> snd (getitem timeout (collected_by timeout evs) k now) = Ok m) /\
      (~ in_time timeout ts now -> snd (getitem timeout (collected_by timeout evs) k now) = Err KeyError)
  | [] => snd (getitem timeout (collected_by timeout evs) k now) = Err KeyError
  end.
Proof.
  intros timeout k evs now H. pose proof (collector_get timeout k evs now H) as G. unfold newest in G.
  destruct (rev (received k evs)) as [|[ts m] r]; exact G.
Qed.
Print Assumptions C40_item.

(** Iteration lists the keys with an item, each once. *)
Theorem C40_keys : forall timeout k evs now,
  In k (snd (iterate timeout (collected_by timeout evs) now)) <->
  exists m, snd (getitem timeout (collected_by timeout evs) k (now k)) = Ok m.
Proof. exact collector_iter. Qed.
Print Assumptions C40_keys.

Theorem C40_keys_once : forall timeout evs now,
  NoDup (snd (iterate timeout (collected_by timeout evs) now)) /\
  size (fst (iterate timeout (collected_by timeout evs) now)) =
  length (snd (iterate timeout (collected_by timeout evs) now)).
Proof. exact collector_iter_once. Qed.
Print Assumptions C40_keys_once.

Example C40_case :
  let evs := [CReceive 5 100 1; CReceive 6 110 2; CReceive 5 200 3; CGet 6 150; CIter (fun _ => 210)] in
  let s := collected_by (Some 100) evs in
  clock_to 5 evs 290 /\ rev (received 5 evs) = [(200, 3%N); (100, 1%N)] /\
  snd (getitem (Some 100) s 5 290) = Ok 3%N /\ snd (getitem (Some 100) s 5 301) = Err KeyError /\
  snd (getitem (Some 100) s 7 290) = Err KeyError /\ snd (iterate (Some 100) s (fun _ => 290)) = [5%N] /\
  snd (getitem None (collected_by None evs) 6 9999) = Ok 2%N.
Proof. split; [|vm_compute; repeat split]. intros r [<-|[]]. lia. Qed.
Print Assumptions C40_case.

(** C77. The length is not the number of keys that iteration lists, unless
    one has just iterated (C40_keys_once) or there is no timeout. *)
Theorem C77_length_partial : forall evs now,
  size (collected_by None evs) = length (snd (iterate None (collected_by None evs) now)).
Proof.
  intros evs now. destruct (collector_iter_once None evs now) as (_ & <-). unfold size. cbn [iterate fst].
  f_equal. generalize (map fst (collected_by None evs)). intros l.
  generalize (collected_by None evs) as s. induction l as [|k l IH]; intros s; [reflexivity|]. cbn [fold_left].
  apply IH.
Qed.
Print Assumptions C77_length_partial.

Theorem C77_length_refuted : exists evs now,
  size (collected_by (Some 100) evs) <> length (snd (iterate (Some 100) (collected_by (Some 100) evs) now)).
Proof. exists [CReceive 5 100 1], (fun _ => 201). vm_compute. discriminate. Qed.
Print Assumptions C77_length_refuted.
