(** Types used as examples for C83. *)
From stdpp Require Import list.
From Verif Require Import BindModel.

(** a struct of the user's, std::allocator of it, std::pmr::polymorphic_allocator of it; std::tuple<int, user's struct> *)
Definition user_struct : cty := CClass [NsUser 0] [].
Definition std_allocator (t : cty) : cty := CClass [NsStd] [t].
Definition pmr_allocator (t : cty) : cty := CClass [NsStdPmr] [t].
Definition std_tuple : cty := CClass [NsStd] [CNoClass; user_struct].
