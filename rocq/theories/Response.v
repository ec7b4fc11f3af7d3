(** Response.v -- model of /repo/src/attpc_engine/detector/response.py [get_response] over any
    numbers and [apply_response] in binary64 (numba-compiled: sequential max and sum). *)
From Coq Require Import ZArith.
From Flocq Require Import BinarySingleNaN.
From Verif Require Import Base F64 Num.
Local Open Scope Z_scope.

(** ** get_response, response.py 8-32 (numpy), over any numbers.  sin and the third power are
    parameters, as are the constants E_CHARGE, 1e-15 and 0.001. *)
Section GetResponse.
  Context {N : Num} (nsin cube : N -> N) (e_charge femto milli : N).

  (** Python's [/] on floats. *)
  Definition pydiv (a b : N) : res N :=
    if neqb b (nofZ 0) then Err ZeroDivisionError else Ok (ndiv a b).

  (** response.py 26, np.linspace(0.0, 512, 512): multiples of 512/511, the last exactly 512. *)
  Definition time_points : list N :=
    map (fun i => let z := Z.of_nat i in
                  if z =? 511 then nofZ 512
                  else nadd (nmul (nofZ z) (ndiv (nofZ 512) (nofZ 511))) (nofZ 0))
        (seq 0 512).

  (** response.py 25. *)
  Definition scale (amp_gain : Z) : res N :=
    let* a := pydiv (nmul (nofZ 4095) e_charge) (nofZ amp_gain) in pydiv a femto.

  (** response.py 27-30, one sample. *)
  Definition sample (c1 width tb : N) : N :=
    let c2 := ndiv tb width in
    let r := nmul (nmul (nmul c1 (nexp (nmul (nofZ (-3)) c2))) (cube c2)) (nsin c2) in
    if nltb r (nofZ 0) then nofZ 0 else r.

  (** response.py 8-32 [get_response]. *)
  Definition get_response (amp_gain shaping_time : Z) (clock_freq : N) : res (list N) :=
    let* c1 := scale amp_gain in
    let width := nmul (nmul (nofZ shaping_time) clock_freq) milli in
    Ok (map (sample c1 width) time_points).
End GetResponse.

(** response.py 56: [resp_sig[resp_sig > 4095] = 4095]. *)
Definition clip (x : f64) : f64 := if fltb (f_of_Z 4095) x then f_of_Z 4095 else x.

(** response.py 55-56: the scaled and clipped signal. *)
Definition signal (response : list f64) (electrons : f64) : list f64 :=
  map (fun r => clip (fmul r electrons)) response.

(** numba's array [max]: the first NaN if there is one, otherwise the largest element;
    ValueError for an empty array. *)
Fixpoint max_from (m : f64) (l : list f64) : f64 :=
  if is_nan m then m
  else match l with
       | [] => m
       | x :: l' => max_from (if is_nan x then x else if fltb m x then x else m) l'
       end.
Definition array_max (l : list f64) : res f64 :=
  match l with [] => Err ValueError | x :: l' => Ok (max_from x l') end.

(** numba's array [sum]: sequential, starting from 0. *)
Definition array_sum (l : list f64) : f64 := fold_left fadd l (f_of_Z 0).

(** response.py 35-57 [apply_response]. *)
Definition apply_response (response : list f64) (electrons : f64) : res (f64 * f64) :=
  let sig := signal response electrons in
  let* m := array_max sig in
  Ok (m, array_sum sig).
