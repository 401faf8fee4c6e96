(** What programs over variables of pointer and reference types mean: every variable denotes nothing or an object, as a
    plain pointer or a plain reference would, whatever the library stores in it. *)
From stdpp Require Import gmap list.
From Verif Require Import AnyModel AnyInv AnyFacts DescModel PolyModel PolySpec RebindModel.

(** A variable: its type, what it denotes, and the stateful reference it depends on: for a view the one it was taken
    from by get_view, directly or through further conversions; for a stateful reference itself. *)
Record vinfo : Set := VInfo { vi_ty : sty; vi_target : target; vi_from : option nat }.
Notation vinfos := (gmap nat vinfo).

Fixpoint last_ref (f : option nat) (l : list step) : option nat :=
  match l with
  | [] => f
  | ToSref r _ :: tl | ToScref r _ :: tl => last_ref (Some r) tl
  | _ :: tl => last_ref f tl
  end.
Definition origin_ref (o : origin) : option nat := match o with OState _ r _ _ _ => Some r | _ => None end.

(** names of the stateful references an expression and a statement create *)
Definition expr_names (e : source) (l : list step) : list nat :=
  match e with SOrigin o => all_names o l | SVar _ => concat (map step_names l) end.
Definition stmt_names (t : stmt) : list nat :=
  match t with SNew _ e l | SAssign _ e l => expr_names e l | _ => [] end.

(** an expression *)
Inductive expr_means (w0 : world) (G : vinfos) : source -> list step -> vinfo -> Prop :=
| em_origin o s d l s' : begins w0 o s d -> chain s l s' -> (d = None -> null_safe l) ->
    expr_means w0 G (SOrigin o) l (VInfo s' d (last_ref (origin_ref o) l))
| em_var y s d f l s' : G !! y = Some (VInfo s d f) -> chain s l s' -> (d = None -> null_safe l) ->
    expr_means w0 G (SVar y) l (VInfo s' d (last_ref f l)).

Definition is_view (s : sty) : bool := match s with VView _ _ => true | VState _ _ => false end.
(** the expression makes a new object rather than naming a variable *)
Definition temporary (e : source) (l : list step) : Prop := match e with SOrigin _ => True | SVar _ => l <> [] end.
(** a view must not be taken from a stateful reference that dies with the expression *)
Definition lasting (e : source) (l : list step) (v : vinfo) : Prop :=
  is_view (vi_ty v) = true -> forall r, vi_from v = Some r -> ~ In r (expr_names e l).
(** some other variable is a view taken from the stateful reference x *)
Definition lent (G : vinfos) (x : nat) : Prop :=
  exists vx y v, G !! x = Some vx /\ y <> x /\ G !! y = Some v /\ is_view (vi_ty vx) = false /\ vi_from v = vi_from vx.

(** x now denotes what v denotes; a stateful reference stays the object it is *)
Definition assigned (old v : vinfo) : vinfo :=
  VInfo (vi_ty old) (vi_target v) (if is_view (vi_ty old) then vi_from v else vi_from old).
(** which right sides may be named variables: any for pointers; const lvalues and rvalues that are not const for references *)
Definition may_assign (s : sty) (n : naming) : Prop :=
  match n with Named const lvalue => is_ref s = true -> const = lvalue end.

Inductive means (w0 : world) (G : vinfos) : stmt -> vinfos -> Prop :=
| mn_default x k ms : G !! x = None -> is_ptr k = true -> means w0 G (SDefault x k ms) (<[x := VInfo (VView k ms) None None]> G)
| mn_null x k ms : G !! x = None -> is_ptr k = true -> means w0 G (SNull x k ms) (<[x := VInfo (VView k ms) None None]> G)
| mn_new x e l v : G !! x = None -> expr_means w0 G e l v -> (is_view (vi_ty v) = false -> temporary e l) -> lasting e l v ->
    means w0 G (SNew x e l) (<[x := v]> G)
| mn_assign_null x k ms d f : G !! x = Some (VInfo (VView k ms) d f) -> is_ptr k = true ->
    means w0 G (SAssignNull x) (<[x := VInfo (VView k ms) None None]> G)
| mn_assign x e l v old : G !! x = Some old -> expr_means w0 G e l v -> vi_ty v = vi_ty old -> temporary e l -> lasting e l v ->
    ~ lent G x -> means w0 G (SAssign x e l) (<[x := assigned old v]> G)
| mn_assign_var x y n v old : G !! x = Some old -> G !! y = Some v -> vi_ty v = vi_ty old -> may_assign (vi_ty old) n ->
    ~ lent G x -> means w0 G (SAssignVar x y n) (<[x := assigned old v]> G)
| mn_end x v : G !! x = Some v -> ~ lent G x -> means w0 G (SEnd x) (delete x G).

Inductive means_all (w0 : world) : vinfos -> list stmt -> vinfos -> Prop :=
| ma_nil G : means_all w0 G [] G
| ma_cons G t G1 tl G2 : means w0 G t G1 -> means_all w0 G1 tl G2 -> means_all w0 G (t :: tl) G2.

(** the program starts in a state with no stateful references, and each one it creates has its own name *)
Definition program (w0 : world) (l : list stmt) (G : vinfos) : Prop :=
  w_sref w0 = ∅ /\ NoDup (concat (map stmt_names l)) /\ means_all w0 ∅ l G.

(** ** What may be observed of a variable *)

(** calls through it reach the object: its type's entry for every method, its address as the receiver *)
Definition reaches (w : world) (c : cur) (ms : list method) (T : nat) (q : ptr) : Prop :=
  (forall m, In m ms -> cur_slot c m w = Ok T w) /\ self_of c w = Ok q w.

Definition pointer_to (w : world) (p : pval) (k : kind) (ms : list method) (d : target) : Prop :=
  pv_k p = k /\ pv_ms p = ms /\ raw p = option_map snd d /\
  (has_value p = true <-> d <> None) /\ (to_bool p = true <-> d <> None) /\ (eq_null p = true <-> d = None) /\ (ne_null p = true <-> d <> None) /\
  match d with
  | Some (T, q) => exists r, arrow p = Some r /\ reaches w (CView r) ms T q /\ pv_ms r = ms /\ (k = KPtr -> pv_k r = KRef) /\ (k = KCPtr -> pv_k r = KCRef)
  | None => True
  end.

Definition reference_to (w : world) (c : cur) (ms : list method) (d : target) : Prop :=
  match d with Some (T, q) => reaches w c ms T q | None => False end.

Definition acts_as (w : world) (c : cur) (v : vinfo) : Prop :=
  match vi_ty v with
  | VView k ms => if is_ptr k then exists p, c = CView p /\ pointer_to w p k ms (vi_target v) else reference_to w c ms (vi_target v)
  | VState _ ms => reference_to w c ms (vi_target v)
  end.

(** objects and anys are untouched *)
Definition same_objects (w w' : world) : Prop :=
  (forall q, obj_at w' q = obj_at w q) /\ (forall i, content w' i = content w i) /\ w_heap w' = w_heap w.

(** the static type of a variable's value *)
Definition type_of (w : world) (c : cur) : option sty :=
  match c with
  | CView p => Some (VView (pv_k p) (pv_ms p))
  | CState b r => match w_sref w !! r with Some s => Some (VState b (sr_ms s)) | None => None end
  end.
