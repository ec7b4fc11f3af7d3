(** Num.v -- the numeric operations used by the [@njit] code, as a record, with two
    instances: IEEE binary64 ([F64], libm [exp] is a parameter) and exact reals with an
    explicit NaN ([XR]).  The code is modelled once, over any [Num]. *)
From Coq Require Import ZArith Reals.
From Flocq Require Import Core BinarySingleNaN.
From Verif Require Import Base F64.

Record Num := mkNum {
  T :> Type;
  nadd : T -> T -> T;
  nsub : T -> T -> T;
  nmul : T -> T -> T;
  ndiv : T -> T -> T;            (** IEEE division, never raises *)
  nsqrt : T -> T;
  nexp : T -> T;
  nfloor : T -> T;
  nofZ : Z -> T;
  ntoZ : T -> option Z;          (** int(x): truncation; [None] = undefined behaviour *)
  nltb : T -> T -> bool;
  nleb : T -> T -> bool;
  neqb : T -> T -> bool;
  npi : T
}.
Arguments nadd {n}. Arguments nsub {n}. Arguments nmul {n}. Arguments ndiv {n}.
Arguments nsqrt {n}. Arguments nexp {n}. Arguments nfloor {n}. Arguments nofZ {n}.
Arguments ntoZ {n}. Arguments nltb {n}. Arguments nleb {n}. Arguments neqb {n}.
Arguments npi {n}.

(** Scalar [/] inside [@njit] code: numba's default error model raises
    ZeroDivisionError for a zero divisor. *)
Definition njdiv {N : Num} (a b : N) : res N :=
  if neqb b (nofZ 0) then Err ZeroDivisionError else Ok (ndiv a b).

(** [int(x)] inside [@njit] code. *)
Definition njint {N : Num} (a : N) : res Z :=
  match ntoZ a with Some z => Ok z | None => Err UB end.

(** np.pi = 7074237752028440 * 2^-51 in binary64. *)
Definition F64 (fexp : f64 -> f64) : Num :=
  mkNum f64 fadd fsub fmul fdiv fsqrt fexp ffloor f_of_Z f_to_Z fltb fleb feqb
        (f_of_ZE 7074237752028440 (-51)).

(** Exact reals with NaN ([None]). *)
Local Open Scope R_scope.
Definition lift1 (f : R -> R) (a : option R) : option R :=
  match a with Some x => Some (f x) | None => None end.
Definition lift2 (f : R -> R -> R) (a b : option R) : option R :=
  match a, b with Some x, Some y => Some (f x y) | _, _ => None end.
Definition cmp2 (f : R -> R -> bool) (a b : option R) : bool :=
  match a, b with Some x, Some y => f x y | _, _ => false end.
Definition xdiv (a b : option R) : option R :=
  match a, b with
  | Some x, Some y => if Req_bool y 0 then None else Some (x / y)
  | _, _ => None
  end.
Definition xsqrt (a : option R) : option R :=
  match a with Some x => if Rlt_bool x 0 then None else Some (sqrt x) | None => None end.
Definition xtoZ (a : option R) : option Z :=
  match a with
  | Some x => if in_int64 (Ztrunc x) then Some (Ztrunc x) else None
  | None => None
  end.
Definition XR : Num :=
  mkNum (option R) (lift2 Rplus) (lift2 Rminus) (lift2 Rmult) xdiv xsqrt (lift1 exp)
        (lift1 (fun x => IZR (Zfloor x))) (fun z => Some (IZR z)) xtoZ
        (cmp2 Rlt_bool) (cmp2 Rle_bool) (cmp2 Req_bool) (Some PI).
