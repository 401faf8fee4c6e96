(** What descriptors should do, without reference to the code. *)
From Coq Require Import String ZArith List.
From Verif Require Import DescModel.
Import ListNotations.
Local Open Scope Z_scope.

(** memory [l] begins with the C string [s] *)
Definition cstring (l s : list Z) : Prop := exists rest, l = s ++ 0 :: rest /\ ~ In 0 s.

(** dictionary order of terminated strings: at the first difference the smaller character comes first *)
Definition before (s t : list Z) : Prop :=
  exists p a b u v, s ++ [0] = p ++ a :: u /\ t ++ [0] = p ++ b :: v /\ a < b.

(** ** std::decay_t as a relation *)
Inductive refers : ctype -> ctype -> Prop :=
| refers_lvalue u : refers (CRef u) u
| refers_rvalue u : refers (CRRef u) u
| refers_itself t : (forall u, t <> CRef u) -> (forall u, t <> CRRef u) -> refers t t.
Inductive unqualified : ctype -> ctype -> Prop :=
| unq_const t u : unqualified t u -> unqualified (CConst t) u
| unq_volatile t u : unqualified t u -> unqualified (CVolatile t) u
| unq_itself t : (forall u, t <> CConst u) -> (forall u, t <> CVolatile u) -> unqualified t t.
(** arrays decay to pointers to their elements, functions to pointers to functions, the rest loses const and volatile *)
Inductive decays : ctype -> ctype -> Prop :=
| decays_array t u n : refers t (CArray u n) -> decays t (CPtr u)
| decays_function t n : refers t (CFun n) -> decays t (CPtr (CFun n))
| decays_object t o d : refers t o -> (forall u n, o <> CArray u n) -> (forall n, o <> CFun n) -> unqualified o d -> decays t d.

(** ** Names *)
(** [core] is what a name says beyond the class key MSVC puts in front of it *)
Inductive spells : compiler -> list Z -> list Z -> Prop :=
| spells_gcc nm : spells Gcc nm nm
| spells_clang nm : spells Clang nm nm
| spells_class nm : spells Msvc (cs "class " ++ nm) nm
| spells_struct nm : spells Msvc (cs "struct " ++ nm) nm
| spells_other nm : (forall r, nm <> cs "class" ++ r) -> (forall r, nm <> cs "struct" ++ r) -> spells Msvc nm nm.
(** two units spell types consistently: a name is a C string and has a core, the same core for the same type and only for
    it; what a pointer points to is one string *)
Definition well_spelled (cc : compiler) (u : unit_of) : Prop := forall d, ~ In 0 (u_name u d) /\ exists c, spells cc (u_name u d) c.
Definition one_string (cc : compiler) (u v : unit_of) : Prop :=
  forall x y c c', u_addr u x = u_addr v y -> spells cc (u_name u x) c -> spells cc (u_name v y) c' -> c = c'.
Definition agree (cc : compiler) (u v : unit_of) : Prop :=
  forall x d c, decays x d -> spells cc (u_name u d) c -> forall c', spells cc (u_name v d) c' -> c = c'.
Definition distinct (cc : compiler) (u v : unit_of) : Prop :=
  forall x y d e c, decays x d -> decays y e -> spells cc (u_name u d) c -> spells cc (u_name v e) c -> d = e.
