(** Shared vocabulary of the model: Python exceptions as values, the stable
    [sorted()] of Python, and a few string helpers.  No proofs here. *)
From Coq Require Export ZArith Bool Ascii String List.
Export ListNotations.
Local Open Scope Z_scope.

(** A Python call either returns or raises; [exn] is the exception class name.
    [OutOfFuel] is not a Python exception: it marks exhaustion of the model's
    explicit recursion bound and is excluded by theorems. *)
Inductive exn := Exn (name : string) | OutOfFuel.
Inductive res (A : Type) := Ok (a : A) | Raise (e : exn).
Arguments Ok {A} a.
Arguments Raise {A} e.

Definition bind {A B} (m : res A) (f : A -> res B) : res B :=
  match m with Ok a => f a | Raise e => Raise e end.
Notation "'let!' x ':=' m 'in' k" := (bind m (fun x => k))
  (at level 200, x pattern, right associativity).

Fixpoint mapM {A B} (f : A -> res B) (l : list A) : res (list B) :=
  match l with
  | [] => Ok []
  | x :: l => let! y := f x in let! ys := mapM f l in Ok (y :: ys)
  end.

(** Python [sorted(l, key=...)]: the stable sort for a total preorder [leb].
    A stable sort has exactly one result, so insertion sort is as good a model
    as timsort. *)
Section Sort.
  Context {A : Type} (leb : A -> A -> bool).
  Fixpoint insert (x : A) (l : list A) : list A :=
    match l with
    | [] => [x]
    | y :: l' => if leb x y then x :: y :: l' else y :: insert x l'
    end.
  Definition py_sorted (l : list A) : list A := fold_right insert [] l.
  (** [sorted(l, reverse=True)] keeps the original order of equal elements. *)
  Definition py_sorted_rev (l : list A) : list A := rev (py_sorted (rev l)).
End Sort.

(** [x in l] for an equality test *)
Definition memb {A} (eqb : A -> A -> bool) (x : A) (l : list A) : bool :=
  existsb (eqb x) l.

(** ** Strings *)

Definition str_in (s : string) (l : list string) : bool := memb String.eqb s l.

Definition is_empty (s : string) : bool :=
  match s with EmptyString => true | _ => false end.

(** Python [needle in hay] on strings. *)
Fixpoint substring_of (needle hay : string) : bool :=
  if String.prefix needle hay then true
  else match hay with
       | EmptyString => false
       | String _ hay' => substring_of needle hay'
       end.

(** Python integer [.bit_length()] for non-negative integers. *)
Definition bit_length (x : Z) : Z := if x =? 0 then 0 else Z.log2 x + 1.

Definition Zlen {A} (l : list A) : Z := Z.of_nat (List.length l).

(** Python [str(n)] for an integer: decimal digits, no leading zeros. *)
Definition digit_char (d : Z) : ascii := ascii_of_nat (48 + Z.to_nat d).
Fixpoint dec_loop (fuel : nat) (n : Z) (acc : string) : string :=
  match fuel with
  | O => acc
  | S fuel' =>
      let acc' := String (digit_char (n mod 10)) acc in
      if n / 10 =? 0 then acc' else dec_loop fuel' (n / 10) acc'
  end.
Definition dec (n : Z) : string :=
  if n <? 0 then String "-" (dec_loop (S (Z.to_nat (Z.log2 (- n)))) (- n) "")
  else dec_loop (S (Z.to_nat (Z.log2 n))) n "".

(** Python [sep.join(l)]. *)
Fixpoint join (sep : string) (l : list string) : string :=
  match l with
  | [] => ""
  | [x] => x
  | x :: l' => append x (append sep (join sep l'))
  end.
