(** examples/esc_enumeration.py: [enumerate_all_esc], which gives each motor
    controller its index. The node is modelled by the callbacks it makes in
    each call of [spin]: a request's callback is called at most once (C25), with
    its answer or, when its time is up, with nothing; an exception of a
    callback leaves [spin]. Sending does not fail; printing is left out. *)
From Verif.Base Require Import Prelude.
Local Open Scope nat_scope.

Definition pname := list N.

(** A request that waits for its answer: the node, and what is called. *)
Inductive callback := CBegin | CSet | CSave.
Record pending := Pending { q_node : N; q_call : callback }.
(** An answer, in the parts that the callbacks look at: whether it reports
    success ([error], [ok]), and the parameter's name and value. *)
Record reply := Reply { a_ok : bool; a_name : pname; a_value : Z }.

(** What happens in [spin]: the callback of the [j]-th waiting request is
    called, an indication comes in, or something else raises. *)
Inductive happening :=
| Answered (j : nat) (a : option reply)
| Indicated (src : N) (name : pname)
| Broke (e : exn).

(** What was asked, and what was confirmed. *)
Inductive entry :=
| AskBegin (n : N) (timeout : Z)
| AskSet (n : N) (name : pname) (v : Z)
| AskSave (n : N)
| Begun (n : N)
| SetTo (n : N) (name : pname) (v : Z)
| Saved (n : N).

(** Where the program is: in the loop of 57-58, 78-81, 91-92 or 125-126, or at
    the end. *)
Inductive place := Starting | Listening | Stopping | Configuring | Returned | Raised (e : exn).

Record enum := Enum {
  e_place : place;
  e_count : nat;                    (* begin_responses_succeeded *)
  e_done : list N;                  (* enumerated_nodes *)
  e_next : Z;                       (* next_index *)
  e_heard : option (N * pname);     (* received_indication *)
  e_set : bool;                     (* configuration_finished *)
  e_waiting : list pending;
  e_log : list entry
}.

Definition put (s : enum) (p : place) : enum :=
  Enum p (e_count s) (e_done s) (e_next s) (e_heard s) (e_set s) (e_waiting s) (e_log s).
Definition ask (s : enum) (n : N) (c : callback) (l : entry) : enum :=
  Enum (e_place s) (e_count s) (e_done s) (e_next s) (e_heard s) (e_set s) (e_waiting s ++ [Pending n c]) (e_log s ++ [l]).
Definition logged (s : enum) (l : entry) : enum :=
  Enum (e_place s) (e_count s) (e_done s) (e_next s) (e_heard s) (e_set s) (e_waiting s) (e_log s ++ [l]).
Definition count (s : enum) (k : nat) : enum :=
  Enum (e_place s) k (e_done s) (e_next s) (e_heard s) (e_set s) (e_waiting s) (e_log s).
Definition hear (s : enum) (h : option (N * pname)) : enum :=
  Enum (e_place s) (e_count s) (e_done s) (e_next s) h (e_set s) (e_waiting s) (e_log s).
Definition settle (s : enum) (b : bool) : enum :=
  Enum (e_place s) (e_count s) (e_done s) (e_next s) (e_heard s) b (e_waiting s) (e_log s).
Definition unwait (s : enum) (j : nat) : enum :=
  Enum (e_place s) (e_count s) (e_done s) (e_next s) (e_heard s) (e_set s)
    (firstn j (e_waiting s) ++ skipn (S j) (e_waiting s)) (e_log s).

Section Enumeration.
  (** [esc_nodes], [timeout], and the time of the call. *)
  Variables (esc : list N) (timeout : Z) (start : Z).

  (** 63: [set(enumerated_nodes) != esc_nodes] *)
  Definition same_set (a b : list N) : bool :=
    forallb (fun n => existsb (N.eqb n) b) a && forallb (fun n => existsb (N.eqb n) a) b.

  (** 63-78: the head of the loop. *)
  Definition next_round (s : enum) : enum :=
    if same_set (e_done s) esc then put s Returned else put (hear s None) Listening.

  (** 57, 78-93, 91-126, 125-131: the program after [spin] has returned at time
      [now]. *)
  Definition resume (s : enum) (now : Z) : enum :=
    match e_place s with
    | Starting => if e_count s <? length esc then s else next_round s
    | Listening =>
        if (start + timeout <? now)%Z then put s (Raised UserException)
        else match e_heard s with
             | None => s
             | Some (n, _) => put (ask (count s 0) n CBegin (AskBegin n 0)) Stopping
             end
    | Stopping =>
        if e_count s <? 1 then s
        else match e_heard s with
             | None => put s (Raised AttributeError)
             | Some (n, name) => put (ask (settle s false) n CSet (AskSet n name (e_next s))) Configuring
             end
    | Configuring =>
        if e_set s then
          match e_heard s with
          | None => put s (Raised AttributeError)
          | Some (n, _) =>
              next_round (Enum (e_place s) (e_count s) (e_done s ++ [n]) (e_next s + 1)%Z (e_heard s) (e_set s) (e_waiting s) (e_log s))
          end
        else s
    | Returned | Raised _ => s
    end.

  (** 49-58 *)
  Definition begin_all : enum :=
    resume (fold_left (fun s n => ask s n CBegin (AskBegin n timeout)) esc (Enum Starting 0 [] 0 None false [] [])) start.

  (** 39-47, 97-118: the callbacks of the requests. *)
  Definition called (s : enum) (q : pending) (a : option reply) : enum :=
    match a with
    | None => put s (Raised UserException)
    | Some r =>
        match q_call q with
        | CBegin => if a_ok r then logged (count s (S (e_count s))) (Begun (q_node q)) else put s (Raised UserException)
        | CSet =>
            match e_heard s with
            | None => put s (Raised AttributeError)
            | Some (n, name) =>
                if (if list_eq_dec N.eq_dec (a_name r) name then true else false) && (a_value r =? e_next s)%Z
                then ask (logged s (SetTo (q_node q) (a_name r) (a_value r))) n CSave (AskSave n)
                else put s (Raised AssertionError)
            end
        | CSave => if a_ok r then logged (settle s true) (Saved (q_node q)) else put s (Raised UserException)
        end
    end.
  (** 66-72: the handler of indications, which is there only while listening. *)
  Definition indicated (s : enum) (src : N) (name : pname) : enum :=
    match e_place s with
    | Listening => if existsb (N.eqb src) (e_done s) then s else hear s (Some (src, name))
    | _ => s
    end.
  Definition happen (s : enum) (h : happening) : enum :=
    match e_place s with
    | Returned | Raised _ => s
    | _ =>
        match h with
        | Answered j a => match nth_error (e_waiting s) j with Some q => called (unwait s j) q a | None => s end
        | Indicated src name => indicated s src name
        | Broke e => put s (Raised e)
        end
    end.
  (** One call of [spin], and the program up to the next one. *)
  Definition spin_once (s : enum) (hs : list happening * Z) : enum :=
    resume (fold_left happen (fst hs) s) (snd hs).
  Definition enumerate (spins : list (list happening * Z)) : enum := fold_left spin_once spins begin_all.
End Enumeration.
