(** Uses of the method macros taken from tests and examples of the library. *)
From Coq Require Import String Ascii Bool List.
From Verif Require Import MacroModel MacroSpec.
Import ListNotations.
Local Open Scope string_scope.

Definition ex_params : list tok := lex "const& self, int x, char y".
Definition ex_expr : list tok := lex "self.kekab(x, y)".
Definition ex_rest : list tok := lex "-> std::string".
(** a return type with a comma that no parenthesis hides *)
Definition ex_before : list tok := lex "-> std::pair<int".
Definition ex_after : list tok := lex "char>".

Definition free_check (l : list tok) : bool := forallb (fun t => match t with Id s => negb (mem s reserved) | _ => true end) l.
Lemma free_check_ok l : free_check l = true -> macro_free l.
Proof.
  intros H s Hs Hr. unfold free_check in H. rewrite forallb_forall in H. apply H in Hs. apply negb_true_iff in Hs. unfold mem in Hs.
  assert (existsb (String.eqb s) reserved = true) as E by (apply existsb_exists; exists s; split; [easy|apply String.eqb_refl]). congruence.
Qed.
Lemma ex_params_ok : macro_free ex_params /\ balanced ex_params.
Proof. split; [apply free_check_ok; vm_compute; reflexivity|]. vm_compute. repeat (apply bal_tok; [discriminate|discriminate|]). apply bal_nil. Qed.
Lemma ex_expr_ok : macro_free ex_expr /\ balanced ex_expr.
Proof.
  split; [apply free_check_ok; vm_compute; reflexivity|]. vm_compute. repeat (apply bal_tok; [discriminate|discriminate|]).
  apply (bal_paren [Id "x"; Pun ","; Id "y"] []); [repeat (apply bal_tok; [discriminate|discriminate|]); apply bal_nil|apply bal_nil].
Qed.
Lemma ex_rest_ok : macro_free ex_rest /\ no_comma ex_rest.
Proof. split; [apply free_check_ok; vm_compute; reflexivity|]. vm_compute. repeat (apply nc_tok; [discriminate|discriminate|discriminate|]). apply nc_nil. Qed.
Lemma ex_before_ok : macro_free ex_before /\ no_comma ex_before.
Proof. split; [apply free_check_ok; vm_compute; reflexivity|]. vm_compute. repeat (apply nc_tok; [discriminate|discriminate|discriminate|]). apply nc_nil. Qed.
Lemma ex_after_ok : macro_free ex_after /\ balanced ex_after.
Proof. split; [apply free_check_ok; vm_compute; reflexivity|]. vm_compute. repeat (apply bal_tok; [discriminate|discriminate|]). apply bal_nil. Qed.
Lemma ex_name_ok : ~ In "Kekab" reserved.
Proof. intros H. cbn in H. repeat (destruct H as [H|H]; [discriminate|]). easy. Qed.
