(** What a node promises, in terms of what happened. *)
From Verif.Base Require Import Prelude.
From Verif.Model Require Import MsgId Frames TransferManager Node.

(** Transfer ids used in one session, by attempts and by completed sendings. *)
Fixpoint attempted (k : key) (l : list nobs) : list N :=
  match l with
  | [] => []
  | OSend (Some k') _ tid _ _ :: l' =>
      if key_eqb k' k then tid :: attempted k l' else attempted k l'
  | _ :: l' => attempted k l'
  end.
Fixpoint completed (k : key) (l : list nobs) : list N :=
  match l with
  | [] => []
  | OSend (Some k') _ tid _ None :: l' =>
      if key_eqb k' k then tid :: completed k l' else completed k l'
  | _ :: l' => completed k l'
  end.

(** Frames given to the driver. *)
Fixpoint bus (l : list nobs) : list frame :=
  match l with
  | [] => []
  | OSend _ _ _ fs _ :: l' => fs ++ bus l'
  | _ :: l' => bus l'
  end.

(** The node ids that were set. *)
Fixpoint ids_set (l : list nobs) : list N :=
  match l with
  | [] => []
  | ONodeId n :: l' => n :: ids_set l'
  | _ :: l' => ids_set l'
  end.

(** Calls of the callback of request [r]. *)
Fixpoint responses (r : nat) (l : list nobs) : nat :=
  match l with
  | [] => 0
  | OResponse r' _ :: l' => if Nat.eqb r' r then S (responses r l') else responses r l'
  | _ :: l' => responses r l'
  end.
Fixpoint timeouts (r : nat) (l : list nobs) : nat :=
  match l with
  | [] => 0
  | OTimeout r' _ :: l' => if Nat.eqb r' r then S (timeouts r l') else timeouts r l'
  | _ :: l' => timeouts r l'
  end.

(** Callbacks of requests return normally when given a response. *)
Definition calm (beh : list nobs -> list (nop * bool) * outcome) : Prop :=
  forall l r t, let (ops, out) := beh (l ++ [OResponse r t]) in
    (forall op c, In (op, c) ops -> c = true) /\ out <> Raises.

(** The calls of handlers. *)
Fixpoint handled (l : list nobs) : list (handler * rx) :=
  match l with
  | [] => []
  | OHandled hd t :: l' => (hd, t) :: handled l'
  | _ :: l' => handled l'
  end.

(** The frames among the inputs of a node. *)
Fixpoint frames_in (ins : list ninput) : list (bool * frame) :=
  match ins with
  | [] => []
  | IFrame x f :: ins' => (x, f) :: frames_in ins'
  | _ :: ins' => frames_in ins'
  end.

(** The scheduler is polled right before each frame. *)
Definition polled_first (ins : list ninput) : Prop :=
  forall a x f b, ins = a ++ IFrame x f :: b -> exists a', a = a' ++ [IPoll; IRead].

(** No callback removes a handler, or none changes handlers at all. *)
Definition removes_none (beh : list nobs -> list (nop * bool) * outcome) : Prop :=
  forall l op c, In (op, c) (fst (beh l)) -> match op with NRemoveHandler _ => False | _ => True end.
Definition adds_none (beh : list nobs -> list (nop * bool) * outcome) : Prop :=
  forall l op c, In (op, c) (fst (beh l)) -> match op with NAddHandler _ _ => False | _ => True end.

(** The extended frames among the inputs: the ones a node looks at. *)
Definition heard (ins : list ninput) : list frame := map snd (filter fst (frames_in ins)).
