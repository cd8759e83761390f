(** Properties of comparing message objects: C150. *)
From Coq Require Import QArith String.
From Verif.Base Require Import Prelude Bits.
From Verif.Model Require Import BitCodec Types Codec Prim Float Utf8 ObjectApi ObjectEq.
From Verif.Spec Require Import PrimSpec CodecSpec ObjectSpec ObjectEqSpec.
From Verif.Proofs Require Import CodecFacts PrimFacts Utf8Facts ObjectArrays ObjectText ObjectEqFacts ObjectEqNumbers.
From Verif.Properties Require Import ObjectProps.
Open Scope nat_scope.
Open Scope list_scope.

(** ** C150 *)

(** An array of integers is equal to a list iff it reads as that list, *)
Theorem C150_list : forall fuel h a et mx xs ys,
  array_at h a et mx -> reads_as h a (map PInt xs) ->
  exists b, py_eq (S (S fuel)) h (PRef a) (PList (map PInt ys)) = Ok b /\
    py_eq (S (S fuel)) h (PList (map PInt ys)) (PRef a) = Ok b /\ (b = true <-> xs = ys).
Proof. exact eq_list. Qed.
Print Assumptions C150_list.
(** and to another array iff both read alike. *)
Theorem C150_arrays : forall fuel h a1 et1 mx1 a2 et2 mx2 xs ys,
  array_at h a1 et1 mx1 -> reads_as h a1 (map PInt xs) ->
  array_at h a2 et2 mx2 -> reads_as h a2 (map PInt ys) ->
  exists b, py_eq (S (S fuel)) h (PRef a1) (PRef a2) = Ok b /\ (b = true <-> xs = ys).
Proof. exact eq_arrays. Qed.
Print Assumptions C150_arrays.
(** Of any primitive type: equal iff all numbers are the same, integers and
    floating point numbers being compared by value and NaN being no number. *)
Theorem C150_number_list : forall fuel h a et mx vs ws,
  array_at h a et mx -> reads_as h a vs -> Forall numeric vs -> Forall numeric ws ->
  exists b, py_eq (S (S fuel)) h (PRef a) (PList ws) = Ok b /\
    py_eq (S (S fuel)) h (PList ws) (PRef a) = Ok b /\ (b = true <-> Forall2 same_number vs ws).
Proof. exact eq_number_list. Qed.
Print Assumptions C150_number_list.
Theorem C150_number_arrays : forall fuel h a1 et1 mx1 a2 et2 mx2 vs ws,
  array_at h a1 et1 mx1 -> reads_as h a1 vs -> array_at h a2 et2 mx2 -> reads_as h a2 ws ->
  Forall numeric vs -> Forall numeric ws ->
  exists b, py_eq (S (S fuel)) h (PRef a1) (PRef a2) = Ok b /\ (b = true <-> Forall2 same_number vs ws).
Proof. exact eq_number_arrays. Qed.
Print Assumptions C150_number_arrays.
(** For arrays of one integer type this means: the same bits. *)
Theorem C150_bits_partial : forall fuel h a1 k n cm1 mx1 a2 cm2 mx2 xs ys items1 items2, int_type k n ->
  array_at h a1 (APrim k n cm1) mx1 -> reads_as h a1 (map PInt xs) -> items_of h a1 = Some items1 ->
  Forall (full n) items1 ->
  array_at h a2 (APrim k n cm2) mx2 -> reads_as h a2 (map PInt ys) -> items_of h a2 = Some items2 ->
  Forall (full n) items2 ->
  (py_eq (S (S fuel)) h (PRef a1) (PRef a2) = Ok true <-> items1 = items2).
Proof. exact eq_bits. Qed.
Print Assumptions C150_bits_partial.
(** A text compares equal iff its UTF-8 form is what the array holds; the
    comparison raises iff the bytes are no text. *)
Theorem C150_text : forall fuel h a dyn et mx items s bs,
  nth_error h a = Some (CArr dyn et mx items) ->
  string_like dyn et = true -> arr_to_bytes h a = Ok bs ->
  (py_eq (S fuel) h (PRef a) (PStr s) = Ok true <-> utf8_encode s = Ok bs) /\
  ((exists t, utf8_encode t = Ok bs) -> exists b, py_eq (S fuel) h (PRef a) (PStr s) = Ok b) /\
  (~ (exists t, utf8_encode t = Ok bs) -> exists e, py_eq (S fuel) h (PRef a) (PStr s) = Err e).
Proof. exact eq_text. Qed.
Print Assumptions C150_text.
(** A field that was given a text is equal to this text and no other. *)
Theorem C150_assigned : forall fuel s h a nm b mx,
  text_field h a nm b KUint mx -> Forall scalar s -> utf8_size s <= mx ->
  exists h', setattr h a nm (PStr s) = (Ok PNone, h') /\ field_array h' a nm b /\
    forall t, exists r, py_eq (S fuel) h' (PRef b) (PStr t) = Ok r /\ (r = true <-> t = s).
Proof. exact eq_assigned. Qed.
Print Assumptions C150_assigned.
(** Arrays of objects are equal iff they hold the same objects. *)
Theorem C150_objects : forall fuel h a1 et1 mx1 a2 et2 mx2 xs ys,
  array_at h a1 et1 mx1 -> reads_as h a1 (map PRef xs) ->
  array_at h a2 et2 mx2 -> reads_as h a2 (map PRef ys) ->
  Forall (fun a => is_array h a = false) (xs ++ ys) ->
  exists b, py_eq (S (S fuel)) h (PRef a1) (PRef a2) = Ok b /\ (b = true <-> xs = ys).
Proof. exact eq_objects. Qed.
Print Assumptions C150_objects.

(** Objects for the examples: 0 and 3 arrays of floats, 6 and 9 arrays of
    objects, 12 an array of bytes. *)
Definition floats_t := AComp "ns.Floats" false [("v", AArr true (APrim KFloat 32 Saturated) 4)]%string [].
Definition points_t := AComp "ns.Points" false [("v", AArr true (AComp "ns.P" false [("x", byte_t)]%string []) 4)]%string [].
Definition texts_t := AComp "ns.Text" false [("v", AArr true byte_t 9)]%string [].
Definition mixed : heap := run [] [ONew floats_t []; ONew floats_t []; ONew points_t []; ONew points_t []; ONew texts_t []].
Definition zeros : heap := run mixed [OAppend 0 (PFloat (FFin false 0 0)); OAppend 3 (PFloat (FFin true 0 0))].
Definition nan : heap := run mixed [OAppend 0 (PFloat FNan)].
Definition garbage : heap := run mixed [OAppend 12 (PInt 255)].

(** Not for floating point numbers: an array with a NaN is not equal to
    itself, and arrays of 0.0 and of -0.0 are equal but have other bits; *)
Theorem C150_floats_refuted : exists h a b,
  py_eq 9 h (PRef a) (PRef b) = Ok true /\ items_of h a <> items_of h b /\
  exists h', py_eq 9 h' (PRef a) (PRef a) = Ok false /\ items_of h' a <> None.
Proof.
  exists zeros, 0, 3. split; [vm_compute; reflexivity|]. split; [vm_compute; discriminate|].
  exists nan. split; [vm_compute; reflexivity|]. vm_compute. discriminate.
Qed.
Print Assumptions C150_floats_refuted.
(** and a comparison with a text can raise: when the bytes are no UTF-8, and
    always when the array is no array of bytes. *)
Theorem C150_raises_refuted : exists h a s b,
  py_eq 9 h (PRef a) (PStr s) = Err UnicodeError /\ py_eq 9 h (PRef b) (PStr s) = Err ValueError.
Proof. exists garbage, 12, [65%N], 0. vm_compute. repeat split. Qed.
Print Assumptions C150_raises_refuted.

(** Bytes 1, 2 in two arrays; two objects with the same contents in two
    arrays; a text. *)
Definition point_t := AComp "ns.P" false [("x", byte_t)]%string [].
Definition compared : heap :=
  run filled [ONew texts_t []; OAppend 10 (PInt 10); OAppend 10 (PInt 20); OAppend 0 (PInt 10)].
Definition points : heap := run mixed [ONew point_t []; ONew point_t []; OAppend 6 (PRef 16); OAppend 9 (PRef 18)].
Example C150_list_case :
  reads_as compared 10 (map PInt [10%Z; 20%Z]) /\
  py_eq 2 compared (PRef 10) (PList [PInt 10; PInt 20]) = Ok true /\
  py_eq 2 compared (PList [PInt 10; PInt 21]) (PRef 10) = Ok false /\
  py_eq 2 compared (PRef 10) (PRef 5) = Ok true /\ py_eq 2 compared (PRef 10) (PRef 0) = Ok false.
Proof.
  split.
  { apply (reads_items compared 10 true byte_t 9 [SPrim (py_format_b 8 10); SPrim (py_format_b 8 20)] _ eq_refl).
    repeat constructor. }
  vm_compute. repeat split.
Qed.
(** -1.5 in an array and -1.5 written with another exponent, -2 as a number
    and as an integer; not 2. *)
Definition negatives : heap := run mixed [OAppend 0 (PFloat (FFin true 3 (-1))); OAppend 0 (PInt (-2))].
Example C150_number_case :
  reads_as negatives 0 [PFloat (FFin true 12582912 (-23)); PFloat (FFin true 8388608 (-22))] /\
  py_eq 2 negatives (PRef 0) (PList [PFloat (FFin true 6 (-2)); PInt (-2)]) = Ok true /\
  py_eq 2 negatives (PRef 0) (PList [PFloat (FFin true 6 (-2)); PInt 2]) = Ok false /\
  same_number (PFloat (FFin true 8388608 (-22))) (PInt (-2)).
Proof.
  split; [|split; [vm_compute; reflexivity|split; [vm_compute; reflexivity|]]].
  - apply (reads_items negatives 0 true (APrim KFloat 32 Saturated) 4
      (match nth_error negatives 0 with Some (CArr _ _ _ l) => l | _ => [] end) _ eq_refl).
    constructor; [vm_compute; reflexivity|]. constructor; [vm_compute; reflexivity|]. constructor.
  - exists (Finite (- inject_Z 8388608 * 2 ^ (-22))%Q), (Finite (inject_Z (-2))). split; [reflexivity|]. split; [reflexivity|].
    vm_compute. reflexivity.
Qed.
Example C150_bits_case : int_type KUint 8 /\ items_of compared 10 = items_of compared 5 /\
  items_of compared 10 = Some [SPrim (py_format_b 8 10); SPrim (py_format_b 8 20)] /\
  Forall (full 8) [SPrim (py_format_b 8 10); SPrim (py_format_b 8 20)].
Proof.
  split; [cbn; lia|]. split; [vm_compute; reflexivity|]. split; [vm_compute; reflexivity|].
  apply Forall_cons; [eexists; split; reflexivity|]. apply Forall_cons; [eexists; split; reflexivity|]. apply Forall_nil.
Qed.
Example C150_text_case : let h := snd (setattr mixed 14 "v" (PStr [72; 8364]%N)) in
  arr_to_bytes h 12 = Ok [72; 226; 130; 172]%N /\ text_field mixed 14 "v" 12 KUint 9 /\
  py_eq 1 h (PRef 12) (PStr [72; 8364]%N) = Ok true /\ py_eq 1 h (PRef 12) (PStr [72]%N) = Ok false.
Proof.
  split; [vm_compute; reflexivity|]. split.
  - split; [|split].
    + do 12 eexists. split; [reflexivity|]. split; [reflexivity|]. split; [reflexivity|]. split; reflexivity.
    + intros full u fs cs d active extra E U. vm_compute in E. injection E as <- <- _ _ _ _ _. discriminate.
    + do 2 eexists. reflexivity.
  - vm_compute. repeat split.
Qed.
(** The same contents, but two objects. *)
Example C150_objects_case : reads_as points 6 (map PRef [16]) /\ reads_as points 9 (map PRef [18]) /\
  is_array points 16 = false /\ is_array points 18 = false /\
  py_eq 9 points (PRef 6) (PRef 9) = Ok false /\ py_eq 9 points (PRef 6) (PRef 6) = Ok true.
Proof.
  split; [apply (reads_items points 6 true point_t 4 [SObj (PRef 16)] _ eq_refl); repeat constructor|].
  split; [apply (reads_items points 9 true point_t 4 [SObj (PRef 18)] _ eq_refl); repeat constructor|].
  vm_compute. repeat split.
Qed.
