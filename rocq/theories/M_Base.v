(** Values, outcomes and the Go runtime parameters of the model. *)
From stdpp Require Export strings gmap list sorting.
From Coq Require Export ZArith Lia.
From Coq Require Export Floats.SpecFloat.
Export ListNotations.
Open Scope list_scope.

(** The four column types; a RawData has one Go map per type
    (dataframe/raw_data.go:18-22). *)
Inductive kind := KObj | KFloat | KInt | KBool.
Global Instance kind_eq_dec : EqDecision kind.
Proof. solve_decision. Defined.
Definition kind_encode (k : kind) : positive :=
  match k with KObj => 1 | KFloat => 2 | KInt => 3 | KBool => 4 end.
Definition kind_decode (p : positive) : option kind :=
  if Pos.eqb p 1 then Some KObj else if Pos.eqb p 2 then Some KFloat
  else if Pos.eqb p 3 then Some KInt else if Pos.eqb p 4 then Some KBool else None.
Lemma kind_decode_encode k : kind_decode (kind_encode k) = Some k.
Proof. by destruct k. Qed.
Global Instance kind_countable : Countable kind :=
  {| encode := kind_encode; decode := kind_decode; decode_encode := kind_decode_encode |}.

(** float64: IEEE-754 binary64 as in Coq's SpecFloat (NaN payloads and the
    NaN sign are not represented; no code in /repo inspects them). *)
Notation f64 := spec_float.
Global Instance f64_eq_dec : EqDecision f64.
Proof. solve_decision. Defined.
Definition f64_zero : f64 := S754_zero false.
Definition f64_add : f64 -> f64 -> f64 := SFadd 53 1024.
Definition f64_sub : f64 -> f64 -> f64 := SFsub 53 1024.
Definition f64_mul : f64 -> f64 -> f64 := SFmul 53 1024.
Definition f64_div : f64 -> f64 -> f64 := SFdiv 53 1024.
(** Go's float64(int) conversion: round to nearest even. *)
Definition f64_of_Z (z : Z) : f64 := binary_normalize 53 1024 z 0 false.
Definition f64_one : f64 := f64_of_Z 1.
Definition f64_isnan (x : f64) : bool := match x with S754_nan => true | _ => false end.
Definition f64_lt (x y : f64) : bool := SFltb x y.
Definition f64_le (x y : f64) : bool := SFleb x y.

(** An interface{} value stored in an object column: nil, a string (a Go string
    is a byte string, hence Coq's [string]), or any other object, known only
    by its identity (the code never looks inside). *)
Inductive obj := ONil | OStr (s : string) | OOther (id : nat).
Global Instance obj_eq_dec : EqDecision obj.
Proof. solve_decision. Defined.

(** A cell of a column. *)
Inductive val := VObj (o : obj) | VFloat (f : f64) | VInt (z : Z) | VBool (b : bool).
Global Instance val_eq_dec : EqDecision val.
Proof. solve_decision. Defined.

(** Go's zero value, i.e. what make([]T, n) puts in the cells. *)
Definition zero_of (k : kind) : val :=
  match k with
  | KObj => VObj ONil | KFloat => VFloat f64_zero | KInt => VInt 0 | KBool => VBool false
  end.
Global Instance val_inhabited : Inhabited val := populate (VObj ONil).

Definition kind_of (v : val) : kind :=
  match v with VObj _ => KObj | VFloat _ => KFloat | VInt _ => KInt | VBool _ => KBool end.

(** Outcome of running Go code: a value or a panic. *)
Inductive res (A : Type) := Ok (a : A) | Panic.
Global Arguments Ok {A} a.
Global Arguments Panic {A}.

Definition res_bind {A B} (m : res A) (f : A -> res B) : res B :=
  match m with Ok a => f a | Panic => Panic end.
Notation "'let?' x := m 'in' k" := (res_bind m (fun x => k))
  (at level 200, x pattern, m at level 100, k at level 200, right associativity).

Fixpoint res_mapM {A B} (f : A -> res B) (l : list A) : res (list B) :=
  match l with
  | [] => Ok []
  | a :: l => let? b := f a in let? r := res_mapM f l in Ok (b :: r)
  end.

(** Column keys: one Go map per type, keyed by the name. *)
Notation key := (kind * string)%type.

(** What depends on the machine or on the Go runtime version: the number of
    CPU cores (runtime.NumCPU, raw_data.go:159) and the capacity chosen by
    append when it has to grow (Go only guarantees that it suffices). *)
Class GoRT := {
  rt_ncpu : Z;
  rt_ncpu_ok : (1 <= rt_ncpu)%Z;
  rt_grow : nat -> nat -> nat;        (* old capacity, needed length *)
  rt_grow_ok : forall c n, n <= rt_grow c n }.

(** Go element access a[i] with i : int. *)
Definition idx {A} (l : list A) (i : Z) : res A :=
  if decide (0 <= i)%Z then
    match l !! Z.to_nat i with Some a => Ok a | None => Panic end
  else Panic.
