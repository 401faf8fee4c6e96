(** What a swarm is meant to be: a sequence of variants, each a type and a value. *)
From stdpp Require Import gmap list sorting.
From Verif Require Import SwarmModel.

Definition variant : Type := nat * nat.
(** the values of type T in the sequence *)
Definition values_of (T : nat) (s : list variant) : list nat := map snd (filter (fun x => fst x = T) s).

(** inserting: at the end; a set ignores what it already has *)
Definition seq_insert (k : ckind) (T v : nat) (s : list variant) : list variant :=
  match k with KBack => s ++ [(T, v)] | KSet => if bool_decide ((T, v) ∈ s) then s else s ++ [(T, v)] end.
(** erasing the values of type T in the positions b <= n < e.  The position of a value is the number of values of the same type
    before it (sequence), or less than it (set). *)
Fixpoint seq_erase_back (T b e n : nat) (s : list variant) : list variant :=
  match s with
  | [] => []
  | x :: tl =>
      if decide (fst x = T) then (if (b <=? n) && (n <? e) then [] else [x]) ++ seq_erase_back T b e (S n) tl
      else x :: seq_erase_back T b e n tl
  end.
Definition smaller (T v : nat) (s : list variant) : nat := length (filter (fun x => x < v) (values_of T s)).
Definition seq_erase (k : ckind) (T b e : nat) (s : list variant) : list variant :=
  match k with
  | KBack => seq_erase_back T b e 0 s
  | KSet => filter (fun x => ~ (fst x = T /\ b <= smaller T (snd x) s < e)) s
  end.

(** how the values of type T are shown: in insertion order, or sorted without repetitions *)
Definition shown (k : ckind) (T : nat) (s : list variant) (l : list nat) : Prop :=
  match k with
  | KBack => l = values_of T s
  | KSet => StronglySorted lt l /\ forall v, v ∈ l <-> (T, v) ∈ s
  end.

Definition seq_step (k : ckind) (o : sop) (m : gmap nat (list variant)) : gmap nat (list variant) :=
  match o with
  | SNew x => <[x := []]> m
  | SCopy x y => match m !! y with Some s => <[x := s]> m | None => m end
  | SMove x y => match m !! y with Some s => <[x := s]> (<[y := []]> m) | None => m end
  | SInsert x T v | SEmplace x T v => alter (seq_insert k T v) x m
  | SInsertList x T vs => alter (fold_left (fun s v => seq_insert k T v s) vs) x m
  | SErase x T i => alter (seq_erase k T i (S i)) x m
  | SEraseRange x T b e => alter (seq_erase k T b e) x m
  | SSwap x y => match m !! x, m !! y with Some s, Some t => <[y := s]> (<[x := t]> m) | _, _ => m end
  end.
(** histories that make sense: new names for new swarms, types of the swarm, positions inside *)
Definition seq_legal (Ts : list nat) (o : sop) (m : gmap nat (list variant)) : Prop :=
  match o with
  | SNew x => m !! x = None
  | SCopy x y | SMove x y => m !! x = None /\ is_Some (m !! y)
  | SInsert x T _ | SEmplace x T _ | SInsertList x T _ => is_Some (m !! x) /\ T ∈ Ts
  | SErase x T i => T ∈ Ts /\ exists s, m !! x = Some s /\ i < length (values_of T s)
  | SEraseRange x T b e => T ∈ Ts /\ exists s, m !! x = Some s /\ b <= e <= length (values_of T s)
  | SSwap x y => is_Some (m !! x) /\ is_Some (m !! y)
  end.
Inductive seq_history (k : ckind) (Ts : list nat) : list sop -> gmap nat (list variant) -> Prop :=
| sh_nil : seq_history k Ts [] ∅
| sh_snoc l o m : seq_history k Ts l m -> seq_legal Ts o m -> seq_history k Ts (l ++ [o]) (seq_step k o m).

(** the swarm and the type an operation is about *)
Definition sop_target (o : sop) : option (nat * nat) :=
  match o with SInsert x T _ | SInsertList x T _ | SEmplace x T _ | SErase x T _ | SEraseRange x T _ _ => Some (x, T) | _ => None end.

(** visiting a sequence of variants one by one: the visitor is called, then the output with its result.
    Result: did it finish, the state, the values left. *)
Section Visit.
  Context {St R : Type} (v : @visitor St R) (out : @out_visitor St R).
  Fixpoint one_by_one (s : list variant) (u : St) : bool * St * list variant :=
    match s with
    | [] => (true, u, [])
    | (T, x) :: tl =>
        match v T x u with
        | inr (u', x') => (false, u', (T, x') :: tl)
        | inl (u', x', r) =>
            match match r with None => Some u' | Some r => out r u' end with
            | None => (false, u', (T, x') :: tl)
            | Some u'' => let '(ok, u3, tl') := one_by_one tl u'' in (ok, u3, (T, x') :: tl')
            end
        end
    end.
End Visit.
(** the results of the calls, when none throws *)
Fixpoint results {St R : Type} (v : @visitor St R) (s : list variant) (u : St) : option (list R * St) :=
  match s with
  | [] => Some ([], u)
  | (T, x) :: tl =>
      match v T x u with
      | inr _ => None
      | inl (u', _, r) => match results v tl u' with
                          | Some (rs, u'') => Some (match r with None => rs | Some r => r :: rs end, u'')
                          | None => None
                          end
      end
  end.
(** the values of the given types, in the order of the types and then as shown *)
Definition visited (k : ckind) (s : list variant) (Types : list nat) (vs : list variant) : Prop :=
  exists ls, Forall2 (fun T l => shown k T s l) Types ls /\ vs = concat (zip_with (fun T l => map (pair T) l) Types ls).
(** the visitor does not change the values it is called with *)
Definition leaves_values {St R : Type} (v : @visitor St R) : Prop :=
  forall T x u, match v T x u with inl (_, x', _) => x' = x | inr (_, x') => x' = x end.
