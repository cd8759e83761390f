(** The times that frames carry. *)
From Verif.Base Require Import Prelude.
From Verif.Model Require Import CanFrame TsEst Slcan Writer.
From Verif.Spec Require Import TsSpec SlcanSpec WriterSpec.

(** What a writer thread has reported so far, seen by the caller or not. *)
Definition reports {W} (s : state W) : list (cframe + exn) := learned (w_log s) ++ w_back s.
Definition shown (l : list (cframe + exn)) : list cframe :=
  flat_map (fun r => match r with inl f => [f] | inr _ => [] end) l.

Local Open Scope Z_scope.
(** The frames of lines without an adapter's time, with the times of the
    reading. *)
Definition arrivals (c : est_params) (lines : list (list N * (Z * Z))) : list (rxframe * Z * Z) :=
  flat_map (fun l => match slcan_parse (fst l) with
                     | Ok (Some (f, None)) => [(f, e_scale c * fst (snd l), e_scale c * snd (snd l))]
                     | _ => []
                     end) lines.
(** The frames of lines, with the times of the reading or, in the order of
    the lines that have an adapter's time, the estimates [ms] and [rs] of the
    two local clocks. *)
Fixpoint stamps (c : est_params) (lines : list (list N * (Z * Z))) (ms rs : list (res estimate)) : list (rxframe * Z * Z) :=
  match lines with
  | [] => []
  | (line, (tm, tr)) :: r =>
      match slcan_parse line with
      | Ok (Some (f, None)) => (f, e_scale c * tm, e_scale c * tr) :: stamps c r ms rs
      | Ok (Some (f, Some _)) =>
          match ms, rs with
          | Ok m :: ms, Ok t :: rs => (f, et_time m, et_time t) :: stamps c r ms rs
          | _, _ => []
          end
      | _ => stamps c r ms rs
      end
  end.
(** The adapter's times with each of the two local clocks. *)
Definition mono_samples (lines : list (list N * (Z * Z))) : list (Z * Z) := map (fun x => (fst x, fst (snd x))) (times_in lines).
Definition real_samples (lines : list (list N * (Z * Z))) : list (Z * Z) := map (fun x => (fst x, snd (snd x))) (times_in lines).
