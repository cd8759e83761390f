(** Reassembly of frames: what a receiver should deliver. *)
From Verif.Base Require Import Prelude.
From Verif.Model Require Import Frames TransferManager.
From Verif.Spec Require Import FrameSpec.

(** Frames with their arrival times, fed one by one; what comes out at each. *)
Fixpoint feed (m : manager) (arrivals : list (frame * Z))
    : manager * list (frame * option (list frame)) :=
  match arrivals with
  | [] => (m, [])
  | (f, now) :: rest =>
      let '(m1, o) := receive_frame m f now in
      let '(m2, os) := feed m1 rest in
      (m2, (f, o) :: os)
  end.

Definition has_key (k : key) (f : frame) : bool := key_eqb k (transfer_key f).

(** The frames of one key among the arrivals. *)
Definition frames_with (k : key) (arrivals : list (frame * Z)) : list frame :=
  filter (has_key k) (map fst arrivals).

(** Everything delivered at frames of one key, in order. *)
Fixpoint somes {A} (l : list (option A)) : list A :=
  match l with
  | [] => []
  | Some a :: l' => a :: somes l'
  | None :: l' => somes l'
  end.
Definition delivered (k : key) (arrivals : list (frame * Z)) : list (list frame) :=
  somes (map snd (filter (fun p => has_key k (fst p)) (snd (feed new_manager arrivals)))).

(** [l] results from merging the lists [ls], each kept in order. *)
Inductive interleaving {A} : list (list A) -> list A -> Prop :=
| inter_nil ls : Forall (fun l => l = []) ls -> interleaving ls []
| inter_cons before x l after rest :
    interleaving (before ++ l :: after) rest ->
    interleaving (before ++ (x :: l) :: after) (x :: rest).

(** [a] results from [b] by leaving out elements. *)
Inductive subsequence {A} : list A -> list A -> Prop :=
| sub_nil l : subsequence [] l
| sub_skip x a b : subsequence a b -> subsequence a (x :: b)
| sub_take x a b : subsequence a b -> subsequence (x :: a) (x :: b).

(** One frame lost, repeated at once, or exchanged with its successor. *)
Inductive fault {A} : list A -> list A -> Prop :=
| fault_drop a x b : fault (a ++ x :: b) (a ++ b)
| fault_duplicate a x b : fault (a ++ x :: b) (a ++ x :: x :: b)
| fault_swap a x y b : fault (a ++ x :: y :: b) (a ++ y :: x :: b).

(** When the last frame of a key arrived. *)
Fixpoint last_arrival (k : key) (arrivals : list (frame * Z)) : option Z :=
  match arrivals with
  | [] => None
  | (f, now) :: rest =>
      match last_arrival k rest with
      | Some t => Some t
      | None => if has_key k f then Some now else None
      end
  end.

(** A partially received transfer of key [k] that saw no frame for longer than
    the timeout. *)
Definition is_stale (arrivals : list (frame * Z)) (now timeout : Z) (k : key) : bool :=
  match last_arrival k arrivals with Some t => (timeout <? now - t)%Z | None => false end.

(** The keys of the partially received transfers, oldest entry first. *)
Definition pending_keys (m : manager) : list key := map fst (m_active m).
