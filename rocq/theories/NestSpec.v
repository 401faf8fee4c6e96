(** Trees of values: specification used by C96. *)
From stdpp Require Import gmap list.
From Verif Require Import NestModel.

(** what an any holds: nothing, or a type, a number and the values of the anys inside *)
Inductive tree : Set := Node (T v : nat) (cs : list (option tree)).

(** ** The machine of trees: variables and no memory *)
Fixpoint tget (l : list (option tree)) (p : list nat) : option (option tree) :=
  match p with
  | [] => None
  | k :: p =>
      match l !! k with
      | None => None
      | Some t => match p with [] => Some t | _ => match t with Some (Node _ _ cs) => tget cs p | None => None end end
      end
  end.
Fixpoint tput (l : list (option tree)) (p : list nat) (x : option tree) : list (option tree) :=
  match p with
  | [] => l
  | k :: p =>
      match p with
      | [] => <[k := x]> l
      | _ => match l !! k with Some (Some (Node T v cs)) => <[k := Some (Node T v (tput cs p x))]> l | _ => l end
      end
  end.
Fixpoint tgets (l : list (option tree)) (qs : list (list nat)) : option (list (option tree)) :=
  match qs with
  | [] => Some []
  | q :: qs => match tget l q, tgets l qs with Some t, Some ts => Some (t :: ts) | _, _ => None end
  end.

(** [p] is [q], or an any inside its value is *)
Definition above (p q : list nat) : Prop := exists r, q = p ++ r.

(** one operation; [th]: it throws *)
Definition tstep (th : bool) (o : op) (f : list (option tree)) : option (list (option tree)) :=
  match o, th with
  | OVar, false => Some (f ++ [None])
  | OValue T v qs, false => match tgets f qs with Some ts => Some (f ++ [Some (Node T v ts)]) | None => None end
  | OCopy q, false => match tget f q with Some t => Some (f ++ [t]) | None => None end
  | OMove q, false => match tget f q with Some t => Some (tput f q None ++ [t]) | None => None end
  | OCopyAssign p q, false => match tget f p, tget f q with Some _, Some t => Some (tput f p t) | _, _ => None end
  | OMoveAssign p q, false =>
      match tget f p, tget f q with
      | Some _, Some t => Some (if bool_decide (p = q) then f else tput (tput f p t) q None)
      | _, _ => None
      end
  | OEmplace p T v qs, false =>
      (* the old value is gone before the new one is made *)
      match tget f p, tgets (tput f p None) qs with Some _, Some ts => Some (tput f p (Some (Node T v ts))) | _, _ => None end
  | OEmplace p _ _ _, true => match tget f p with Some _ => Some (tput f p None) | None => None end
  | OReset p, false => match tget f p with Some _ => Some (tput f p None) | None => None end
  | OPush p q, false =>
      match tget f p, tget f q with Some (Some (Node T v cs)), Some t => Some (tput f p (Some (Node T v (cs ++ [t])))) | _, _ => None end
  | OSet p v, false => match tget f p with Some (Some (Node T _ cs)) => Some (tput f p (Some (Node T v cs))) | _ => None end
  | OEnd, false => match f with [] => None | _ => Some (removelast f) end
  | OValue _ _ _, true | OCopy _, true | OCopyAssign _ _, true | OPush _ _, true => Some f
  | _, true => None
  end.

(** Legal operations: the anys named exist, and an any is not moved into or out of its own value; what is emplaced is not made from the old
    value. *)
Definition legal (f : list (option tree)) (o : op) : Prop :=
  tstep false o f <> None /\
  match o with OMoveAssign p q => p = q \/ (~ above p q /\ ~ above q p) | OEmplace p _ _ qs => Forall (fun q => ~ above p q) qs | _ => True end.

(** ** What memory shows *)
(** [shows h a t B]: any [a] holds [t], and [B] are the blocks it owns, itself and through the anys inside; no block twice *)
Inductive shows (E : env) (h : gmap nat block) : any -> option tree -> gset nat -> Prop :=
| s_nothing : shows E h nothing None ∅
| s_memory b n : h !! b = Some (Block n None) -> shows E h (Any None (PHeap b n) None) None {[b]}
| s_buffer T v cs ts B : fits E T = true -> all_show E h cs ts B -> shows E h (Any (Some T) PBuf (Some (Obj T v cs))) (Some (Node T v ts)) B
| s_heap T v cs ts B b n : h !! b = Some (Block n (Some (Obj T v cs))) -> e_size E T <= n -> all_show E h cs ts B -> b ∉ B ->
    shows E h (Any (Some T) (PHeap b n) None) (Some (Node T v ts)) ({[b]} ∪ B)
with all_show (E : env) (h : gmap nat block) : list any -> list (option tree) -> gset nat -> Prop :=
| a_nil : all_show E h [] [] ∅
| a_cons a t B cs ts C : shows E h a t B -> all_show E h cs ts C -> B ## C -> all_show E h (a :: cs) (t :: ts) (B ∪ C).

(** the variables hold [f]; every block is owned by one any in one of them *)
Definition holds (E : env) (w : world) (f : list (option tree)) : Prop := all_show E (w_heap w) (w_vars w) f (dom (w_heap w)).

(** programs from the start, with the trees the machine above says they make *)
Inductive history (E : env) : world -> list (option tree) -> Prop :=
| h_init : history E init []
| h_ok w f o n w' f' : history E w f -> legal f o -> run E n o w = Ok tt w' -> tstep false o f = Some f' -> history E w' f'
| h_exn w f o n w' f' : history E w f -> legal f o -> run E n o w = Exn w' -> tstep true o f = Some f' -> history E w' f'.
