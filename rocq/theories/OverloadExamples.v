(** Classes and numbers for the examples. *)
From stdpp Require Import list.
From Verif Require Import OverloadModel OverloadSpec.

(** a puppy is a dog, a dog is an animal, a duck is an animal and a swimmer; literals convert to strings *)
Definition animal := 0. Definition dog := 1. Definition puppy := 2. Definition swimmer := 3. Definition duck := 4.
Definition int := 10. Definition double := 11. Definition char := 12. Definition long := 13. Definition string := 14. Definition literal := 15.
Definition zoo : classes := Classes
  (fun d b => match d, b with 1, 0 | 2, 1 | 2, 0 | 4, 0 | 4, 3 => true | _, _ => false end)
  (fun a t => match a, t with
              | 12, 10 => Some Promotion
              | 12, 11 | 13, 10 | 13, 11 | 10, 11 | 11, 10 | 10, 12 | 11, 12 => Some Conversion
              | 15, 14 => Some UserDefined
              | _, _ => None
              end).
Lemma zoo_sane : sane zoo.
Proof.
  split; [|split].
  - intros c. by destruct c as [|[|[|[|[|c]]]]].
  - intros a b c. cbn. destruct a as [|[|[|[|[|a]]]]]; try done; destruct b as [|[|[|[|[|b]]]]]; try done; destruct c as [|[|[|[|[|c]]]]]; done.
  - intros a t r b. cbn. destruct a as [|[|[|[|[|a]]]]]; done.
Qed.
Definition lval (T : nat) : arg := Arg T false true.
Definition plain (Ts : list nat) : list (nat * bool) := map (fun T => (T, false)) Ts.
