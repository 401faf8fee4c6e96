(** What a call of visit_invoke compares: the lookup in the sorted table and the check of const, with the comparisons
    they make recorded.
    Sources: V = include/anyany/visit_invoke.hpp, VD = include/anyany/noexport/visit_invoke_details.hpp.
    The functions follow [lower_bound], [find_key], [key_cmp] and [runtime_const] of VisitModel.v step by step; that they
    return the same results is proved in PropVisitCost.v. *)
From stdpp Require Import gmap list.
From Verif Require Import TypeListModel AnyModel DescModel PolyModel VisitModel.

Section FlatMap.
  Context {K X : Type} (less : K -> K -> option bool).

  (** VD 70 std::lower_bound, and the pairs of keys passed to Compare *)
  Fixpoint lower_bound_t (fuel : nat) (keys : list K) (key : K) (first len : nat) : option nat * list (K * K) :=
    match fuel with
    | 0 => (None, [])
    | S fuel =>
        if len =? 0 then (Some first, [])
        else let half := len / 2 in
             match nth_error keys (first + half) with
             | None => (None, [])
             | Some m =>
                 let r := match less m key with
                          | None => (None, [])
                          | Some true => lower_bound_t fuel keys key (first + half + 1) (len - half - 1)
                          | Some false => lower_bound_t fuel keys key first half
                          end in
                 (fst r, (m, key) :: snd r)
             end
    end.
  (** VD 69-75 find *)
  Definition find_key_t (m : list (K * X)) (key : K) : option (option X) * list (K * K) :=
    let keys := map fst m in
    let r := lower_bound_t (S (length keys)) keys key 0 (length keys) in
    match fst r with
    | None => (None, snd r)
    | Some n =>
        match nth_error m n with
        | None => (Some None, snd r)
        | Some (k, x) =>
            (match less key k with
             | None => None
             | Some true => Some None
             | Some false => Some (Some x)
             end, snd r ++ [(key, k)])
        end
    end.
End FlatMap.

(** V 38 key_type = std::array<descriptor_t, args_count>: operator<, and the pairs of descriptors compared *)
Fixpoint key_cmp_t (a b : list descriptor) : option comparison * list (descriptor * descriptor) :=
  match a, b with
  | [], [] => (Some Eq, [])
  | [], _ :: _ => (Some Lt, [])
  | _ :: _, [] => (Some Gt, [])
  | x :: a', y :: b' =>
      match desc_cmp x y with
      | Some Eq => let r := key_cmp_t a' b' in (fst r, (x, y) :: snd r)
      | r => (r, [(x, y)])
      end
  end.

(** the descriptors compared by one lookup *)
Definition lookup_descriptors {X} (m : list (list descriptor * X)) (key : list descriptor) : list (descriptor * descriptor) :=
  flat_map (fun p => snd (key_cmp_t (fst p) (snd p))) (snd (find_key_t key_less m key)).

(** V 95-97 std::find_if over the array of all overloads: the winner, and the function pointers it is compared with *)
Fixpoint find_winner_t (fs : list overload) (winner : nat) : option overload * list nat :=
  match fs with
  | [] => (None, [])
  | f :: tl => if ov_id f =? winner then (Some f, [ov_id f])
               else let r := find_winner_t tl winner in (fst r, ov_id f :: snd r)
  end.
(** V 84-104 runtime_const_correctness_check *)
Definition runtime_const_t (fs : list overload) (winner : overload) (consts : list bool) : option bool * list nat :=
  let r := find_winner_t fs (ov_id winner) in
  (option_map (fun f => may_accept (const_row (args_count fs) f) consts) (fst r), snd r).
