(** Model: anys as keys of std::unordered_set and std::set.
    Source: A = include/anyany/anyany.hpp: A 1979-1985 std::hash<basic_any>, A 1805-1816 and A 1852-1869 comparison, A 1198-1218 construction,
    A 1192-1194 destruction, as modelled in AnyModel and PolyModel.  What the containers do with their keys is what every implementation
    does; buckets, nodes and the shape of the tree are modelled, the memory of the nodes is not. *)
From stdpp Require Import gmap list.
From Verif Require Import TypeListModel AnyModel AnyHistory DescModel PolyModel.

(** ** std::unordered_set: a node has the hash code of its key and the key (the name of an any) *)
Notation node := (nat * nat)%type.
Notation uset := (list (list node)).
(** ** std::set: a binary search tree of keys (names of anys) *)
Inductive tree : Set := Leaf | Node (l : tree) (x : nat) (r : tree).

Section Env.
  Context (E : env) (O : obs) (ms : list method).

  (** [cached]: the implementation stores the codes and compares them first *)
  Section Hash.
    Context (cached : bool).
    Fixpoint find_node (l : list node) (h k : nat) : M (option node) :=
      match l with
      | [] => retM None
      | (c, x) :: tl =>
          if cached && negb (c =? h) then find_node tl h k
          else let! e := eq_op O (OpAny k) (OpAny x) in if e : bool then retM (Some (c, x)) else find_node tl h k
      end.
    (** no buckets: operator% by zero *)
    Definition bucket (s : uset) (h : nat) : M (list node) :=
      match s !! (h mod length s) with Some l => retM l | None => ubM UbIllFormed end.
    Definition u_contains (s : uset) (k : nat) : M bool :=
      let! h := hash_op O (OpAny k) in
      let! l := bucket s h in
      let! r := find_node l h k in
      retM (match r with Some _ => true | None => false end).
    (** insert(const key&): the node [x] is made by copying the key *)
    Definition u_insert (s : uset) (k x : nat) : M (uset * bool) :=
      let! h := hash_op O (OpAny k) in
      let! l := bucket s h in
      let! r := find_node l h k in
      match r with
      | Some _ => retM (s, false)
      | None => copy_ctor E x k ms ;;; retM (alter (cons (h, x)) (h mod length s) s, true)
      end.
    (** erase(const key&) *)
    Definition u_erase (s : uset) (k : nat) : M (uset * bool) :=
      let! h := hash_op O (OpAny k) in
      let! l := bucket s h in
      let! r := find_node l h k in
      match r with
      | Some (c, x) => dtor E x ;;; retM (alter (filter (fun nd => nd.2 <> x)) (h mod length s) s, true)
      | None => retM (s, false)
      end.
    (** rehash: the codes are computed again unless they are cached *)
    Fixpoint u_place (l : list node) (s : uset) : M uset :=
      match l with
      | [] => retM s
      | (c, x) :: tl =>
          let! h := (if cached then retM c else hash_op O (OpAny x)) in
          u_place tl (alter (cons (h, x)) (h mod length s) s)
      end.
    Definition u_rehash (s : uset) (n : nat) : M uset := u_place (concat s) (replicate n []).
  End Hash.

  (** ** std::set *)
  (** a < b is rewritten to (a <=> b) < 0 *)
  Definition less (i j : nat) : M bool :=
    let! c := cmp_spaceship O (OpAny i) (OpAny j) in retM (match c with Some Lt => true | _ => false end).
  (** lower_bound; find *)
  Fixpoint t_lower (t : tree) (k : nat) (y : option nat) : M (option nat) :=
    match t with
    | Leaf => retM y
    | Node l x r => let! b := less x k in if b : bool then t_lower r k y else t_lower l k (Some x)
    end.
  Definition t_find (t : tree) (k : nat) : M (option nat) :=
    let! y := t_lower t k None in
    match y with
    | None => retM None
    | Some j => let! b := less k j in retM (if b : bool then None else Some j)
    end.
  (** where a new key goes, and the key before that place *)
  Fixpoint t_descend (t : tree) (k : nat) (j : option nat) : M (option nat * list bool) :=
    match t with
    | Leaf => retM (j, [])
    | Node l x r =>
        let! b := less k x in
        if b : bool then let! q := t_descend l k j in retM (fst q, false :: snd q)
        else let! q := t_descend r k (Some x) in retM (fst q, true :: snd q)
    end.
  Fixpoint t_plug (t : tree) (q : list bool) (n : nat) : tree :=
    match t, q with
    | Node l x r, false :: q => Node (t_plug l q n) x r
    | Node l x r, true :: q => Node l x (t_plug r q n)
    | _, _ => Node Leaf n Leaf
    end.
  (** insert(const key&) *)
  Definition t_insert (t : tree) (k n : nat) : M (tree * bool) :=
    let! q := t_descend t k None in
    let! free := match fst q with None => retM true | Some j => less j k end in
    if free : bool then copy_ctor E n k ms ;;; retM (t_plug t (snd q) n, true) else retM (t, false).
  (** erase(const key&): the node is taken out of the tree and its key destroyed; how the tree is balanced is left open, see tree_history *)
  Fixpoint t_join (l r : tree) : tree := match l with Leaf => r | Node a x b => Node a x (t_join b r) end.
  Fixpoint t_unlink (t : tree) (j : nat) : tree :=
    match t with
    | Leaf => Leaf
    | Node l x r => if x =? j then t_join l r else Node (t_unlink l j) x (t_unlink r j)
    end.
  Definition t_erase (t : tree) (k : nat) : M (tree * bool) :=
    let! y := t_find t k in
    match y with
    | Some j => dtor E j ;;; retM (t_unlink t j, true)
    | None => retM (t, false)
    end.
End Env.
