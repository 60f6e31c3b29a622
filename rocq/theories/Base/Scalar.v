(** The arithmetic the code is a template over.

    The C++ code is generic in PointType / WeightType (in practice [double]).
    The model is generic in a record of operations; [RS] (Base/RScalar.v) is exact
    real arithmetic, [FS] (Base/FScalar.v) is IEEE binary64. The two template
    parameters PointType and WeightType are identified (all uses in the
    repository instantiate them with the same type). *)
From Coq Require Import ZArith.

Record Scalar : Type := mkScalar {
  carrier :> Type;
  sadd : carrier -> carrier -> carrier;   (** [a + b] *)
  ssub : carrier -> carrier -> carrier;   (** [a - b] *)
  smul : carrier -> carrier -> carrier;   (** [a * b] *)
  sdiv : carrier -> carrier -> carrier;   (** [a / b] *)
  sopp : carrier -> carrier;              (** [-a] *)
  sabs : carrier -> carrier;              (** std::abs *)
  sltb : carrier -> carrier -> bool;      (** [a < b] *)
  sleb : carrier -> carrier -> bool;      (** [a <= b] *)
  seqb : carrier -> carrier -> bool;      (** [a == b] *)
  sofZ : Z -> carrier;                    (** integer conversion, integral literals *)
  sdec : Z -> Z -> carrier;               (** decimal literal m * 10^-e *)
  scos : carrier -> carrier;              (** std::cos *)
  ssin : carrier -> carrier;              (** std::sin *)
  ssqrt : carrier -> carrier;             (** std::sqrt *)
  slog : carrier -> carrier;              (** std::log *)
  spow : carrier -> carrier -> carrier;   (** std::pow with floating exponent *)
  spowi : carrier -> nat -> carrier;      (** std::pow with integer exponent *)
  spi : carrier;                          (** M_PI *)
  s2pi : carrier;                         (** M_2_PI, the constant 2/pi *)
  seps : carrier                          (** std::numeric_limits<double>::epsilon() *)
}.

Arguments sadd {s}. Arguments ssub {s}. Arguments smul {s}. Arguments sdiv {s}.
Arguments sopp {s}. Arguments sabs {s}. Arguments sltb {s}. Arguments sleb {s}.
Arguments seqb {s}. Arguments sofZ {s}. Arguments sdec {s}. Arguments scos {s}.
Arguments ssin {s}. Arguments ssqrt {s}. Arguments slog {s}. Arguments spow {s}.
Arguments spowi {s}. Arguments spi {s}. Arguments s2pi {s}. Arguments seps {s}.

Declare Scope scalar_scope.
Delimit Scope scalar_scope with S.
Infix "+" := sadd : scalar_scope.
Infix "-" := ssub : scalar_scope.
Infix "*" := smul : scalar_scope.
Infix "/" := sdiv : scalar_scope.
Notation "- x" := (sopp x) : scalar_scope.
Infix "<?" := sltb : scalar_scope.
Infix "<=?" := sleb : scalar_scope.
Infix "=?" := seqb : scalar_scope.

(** Conversion of a [size_t] to the floating type. *)
Definition sofN {S : Scalar} (n : nat) : S := sofZ (Z.of_nat n).
(** Literals [0.0], [1.0], [2.0], [0.5]. *)
Definition s0 {S : Scalar} : S := sofZ 0%Z.
Definition s1 {S : Scalar} : S := sofZ 1%Z.
Definition s2 {S : Scalar} : S := sofZ 2%Z.
Definition shalf {S : Scalar} : S := sdec 5 1.
