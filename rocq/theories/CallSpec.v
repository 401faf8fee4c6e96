(** What the body of a method may rely on, and what the caller may rely on, when arguments are passed.
    [ks]: the parameters in the signature of the method, [ds]: the parameters of the function that finally runs. *)
From stdpp Require Import gmap list.
From Verif Require Import CallModel.

Definition alive (s : store) (o : nat) : Prop := is_Some (s_obj s !! o).
Definition store_wf (s : store) : Prop := forall o, alive s o -> o < s_next s.
Definition names (a : arg) : option nat := match a with ALv o _ | AXv o _ => Some o | APr _ => None end.
Definition value_of (s : store) (a : arg) : option nat := match a with ALv o _ | AXv o _ => s_obj s !! o | APr v => Some v end.

(** reference binding, as in the language *)
Definition accepts (k : pkind) (a : arg) : Prop :=
  match k, a with
  | PVal, _ => True
  | PLref c, ALv _ c' => c' = true -> c = true
  | PLref c, _ => c = true
  | PRref c, AXv _ c' => c' = true -> c = true
  | PRref _, APr _ => True
  | PRref _, ALv _ _ => False
  end.
(** the final function can take what the signature says *)
Definition fits (d k : pkind) : Prop :=
  match k with PVal => accepts d (AXv 0 false) | PLref c => accepts d (ALv 0 c) | PRref c => accepts d (AXv 0 c) end.

(** somewhere on the way the argument is passed by value *)
Definition by_value (k d : pkind) : Prop := k = PVal \/ d = PVal.
(** the caller gave this object away: a non-const xvalue for a parameter by value, or for an rvalue reference that ends in one *)
Definition gives_away (k d : pkind) (a : arg) (o : nat) : Prop := a = AXv o false /\ (k = PVal \/ k = PRref false /\ d = PVal).
(** copies that have to be made: of lvalues and const objects, once *)
Definition copies (k d : pkind) (a : arg) : nat :=
  match k, a, d with
  | PVal, ALv _ _, _ => 1
  | PVal, AXv _ true, _ => 1
  | PLref _, _, PVal => 1
  | PRref true, _, PVal => 1
  | _, _, _ => 0
  end.
Definition const_of (d : pkind) : bool := match d with PVal => false | PLref c | PRref c => c end.

(** the parameter [p] seen by the body in state [s1] for the argument [a] of the call made in state [s0]: the caller's value; the
    caller's object unless passed by value; declared constness *)
Definition arrives (s0 : store) (k d : pkind) (a : arg) (s1 : store) (p : param) : Prop :=
  (exists v, value_of s0 a = Some v /\ s_obj s1 !! p_obj p = Some v) /\
  p_const p = const_of d /\
  (by_value k d -> ~ alive s0 (p_obj p)) /\
  (~ by_value k d -> match names a with Some o => p_obj p = o | None => ~ alive s0 (p_obj p) end).

Definition given_away (ks ds : list pkind) (args : list arg) (o : nat) : Prop :=
  exists i k d a, ks !! i = Some k /\ ds !! i = Some d /\ args !! i = Some a /\ gives_away k d a o.
Definition ncopies (ks ds : list pkind) (args : list arg) : nat :=
  sum_list (zip_with (fun kd a => copies (fst kd) (snd kd) a) (zip ks ds) args).

(** the state in which the body starts *)
Record entry (E : tenv) (s0 : store) (ks ds : list pkind) (args : list arg) (s1 : store) (ps : list param) : Prop := Entry {
  en_len : length ps = length args;
  en_arrives : forall i k d a p, ks !! i = Some k -> ds !! i = Some d -> args !! i = Some a -> ps !! i = Some p -> arrives s0 k d a s1 p;
  (** objects made on the way belong to one parameter *)
  en_own : forall i j p q, ps !! i = Some p -> ps !! j = Some q -> i <> j -> p_obj p = p_obj q -> alive s0 (p_obj p);
  (** the caller's objects *)
  en_kept : forall o, alive s0 o -> ~ given_away ks ds args o -> s_obj s1 !! o = s_obj s0 !! o;
  en_given : forall o v, s_obj s0 !! o = Some v -> given_away ks ds args o -> s_obj s1 !! o = Some (te_left E v);
  en_copies : s_copies s1 = s_copies s0 + ncopies ks ds args;
  en_wf : store_wf s1
}.

(** the caller's side of a call: it compiles, the objects exist, and nothing given away is used twice *)
Record call_ok (s : store) (ks ds : list pkind) (args : list arg) : Prop := CallOk {
  co_lk : length ks = length args;
  co_ld : length ds = length args;
  co_accepts : forall i k a, ks !! i = Some k -> args !! i = Some a -> accepts k a;
  co_fits : forall i k d, ks !! i = Some k -> ds !! i = Some d -> fits d k;
  co_alive : forall i a o, args !! i = Some a -> names a = Some o -> alive s o;
  co_alias : forall i j k d a b o, ks !! i = Some k -> ds !! i = Some d -> args !! i = Some a -> gives_away k d a o ->
    args !! j = Some b -> i <> j -> names b <> Some o
}.
(** a body of the user: it returns or throws, its own objects are gone afterwards *)
Definition body_ok {A} (body : list param -> store -> cr A) : Prop :=
  forall ps s, store_wf s ->
  match body ps s with
  | ROk _ s' | RExn s' => (forall o, alive s' o <-> alive s o) /\ store_wf s'
  | _ => False
  end.

(** [s']: what is left of [s2] in the caller that started in [s0]: its own objects, as the body left them *)
Definition leaves (s0 s2 s' : store) : Prop := store_wf s' /\ forall o, (alive s0 o -> s_obj s' !! o = s_obj s2 !! o) /\ (~ alive s0 o -> ~ alive s' o).
(** the body ran once, from [s1], and its outcome is the outcome of the call *)
Definition ran {A} (s0 s1 : store) (ps : list param) (body : list param -> store -> cr A) (r : cr A) : Prop :=
  match body ps s1, r with
  | ROk x s2, ROk y s' => x = y /\ leaves s0 s2 s'
  | RExn s2, RExn s' => leaves s0 s2 s'
  | _, _ => False
  end.
(** a copy or move constructor threw before the body ran: only objects given away may have changed, nothing is left behind *)
Definition stopped {A} (s0 : store) (gone : nat -> Prop) (r : cr A) : Prop :=
  match r with
  | RExn s' => store_wf s' /\ (forall o, alive s' o <-> alive s0 o) /\ forall o, alive s0 o -> ~ gone o -> s_obj s' !! o = s_obj s0 !! o
  | _ => False
  end.
Definition passes {A} (E : tenv) (s : store) (ks ds : list pkind) (args : list arg) (body : list param -> store -> cr A) (r : cr A) : Prop :=
  (exists ps s1, entry E s ks ds args s1 ps /\ ran s s1 ps body r) \/
  stopped s (given_away ks ds args) r /\ exists t, te_throws E t = true.

(** ** Constness of the operand of invoke *)
Definition operand_const (x : operand) : bool := match x with XAny c _ => c | XRef | XSRef => false | XCref | XSCref => true end.
