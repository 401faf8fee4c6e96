(** Property C74: what anyany_method, anyany_extern_method and anyany_pseudomethod declare. *)
From Coq Require Import String Ascii Bool List.
From Verif Require Import MacroModel MacroSpec MacroProofs MacroExamples.
Import ListNotations.

(** [rest] is what follows requires(...), that is, the trailing return type *)
Theorem C74_anyany_method_partial :
  forall name params expr rest, ~ In name reserved -> macro_free params -> macro_free expr -> macro_free rest ->
  balanced params -> balanced expr -> no_comma rest -> becomes (use "anyany_method" name params expr rest) (method_text name params expr rest).
Proof. exact method_ok. Qed.
Print Assumptions C74_anyany_method_partial.
Theorem C74_anyany_extern_method_partial :
  forall name params expr rest, ~ In name reserved -> macro_free params -> macro_free expr -> macro_free rest ->
  balanced params -> balanced expr -> no_comma rest -> becomes (use "anyany_extern_method" name params expr rest) (extern_method_text name params expr rest).
Proof. exact extern_method_ok. Qed.
Print Assumptions C74_anyany_extern_method_partial.
Theorem C74_anyany_pseudomethod_partial :
  forall name expr rest, ~ In name reserved -> macro_free expr -> macro_free rest ->
  balanced expr -> no_comma rest -> becomes (use_pseudo "anyany_pseudomethod" name expr rest) (pseudomethod_text name expr rest).
Proof. exact pseudomethod_ok. Qed.
Print Assumptions C74_anyany_pseudomethod_partial.
(** missing above: return types with a comma outside parentheses, such as std::pair<int, char>; none of them works *)
Theorem C74_comma_in_return_type_refuted :
  forall macro name params expr a b, In macro ["anyany_method"; "anyany_extern_method"]%string -> ~ In name reserved ->
  macro_free params -> macro_free expr -> macro_free a -> macro_free b -> balanced params -> balanced expr -> no_comma a -> balanced b ->
  ill_formed (use macro name params expr (a ++ Pun "," :: b)).
Proof. exact comma_ill. Qed.
Print Assumptions C74_comma_in_return_type_refuted.
Theorem C74_comma_in_value_type_refuted :
  forall name expr a b, ~ In name reserved -> macro_free expr -> macro_free a -> macro_free b ->
  balanced expr -> no_comma a -> balanced b -> ill_formed (use_pseudo "anyany_pseudomethod" name expr (a ++ Pun "," :: b)).
Proof. exact comma_ill_pseudo. Qed.
Print Assumptions C74_comma_in_value_type_refuted.

Example C74_ex : ~ In "Kekab"%string reserved /\ (macro_free ex_params /\ balanced ex_params) /\ (macro_free ex_expr /\ balanced ex_expr) /\
  (macro_free ex_rest /\ no_comma ex_rest) /\
  use "anyany_extern_method" "Kekab" ex_params ex_expr ex_rest = lex "anyany_extern_method(Kekab, (const& self, int x, char y) requires(self.kekab(x, y)) -> std::string)" /\
  extern_method_text "Kekab" ex_params ex_expr ex_rest =
    lex "struct Kekab { using signature_type = auto(int const& self, int x, char y) -> std::string;
                        using return_type = ::aa::noexport::return_type_of<signature_type>;
                        template <typename Self> static auto do_invoke(Self const& self, int x, char y) -> decltype(static_cast<return_type>(self.kekab(x, y))) {
                          return static_cast<return_type>(self.kekab(x, y)); } }".
Proof. split; [exact ex_name_ok|]. split; [exact ex_params_ok|]. split; [exact ex_expr_ok|]. split; [exact ex_rest_ok|]. vm_compute. split; reflexivity. Qed.
Example C74_ex_comma : (macro_free ex_before /\ no_comma ex_before) /\ (macro_free ex_after /\ balanced ex_after) /\
  use "anyany_method" "Kekab" ex_params ex_expr (ex_before ++ Pun "," :: ex_after) =
    lex "anyany_method(Kekab, (const& self, int x, char y) requires(self.kekab(x, y)) -> std::pair<int, char>)".
Proof. split; [exact ex_before_ok|]. split; [exact ex_after_ok|]. vm_compute. reflexivity. Qed.
(** every definition in the header was understood *)
Example C74_ex_header : map (fun s => match read_define s with Some _ => true | None => false end) sources = repeat true 19 /\ map fst header = reserved.
Proof. vm_compute. split; reflexivity. Qed.
