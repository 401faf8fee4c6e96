(** What the method macros should produce, written without macros. *)
From Coq Require Import List String Ascii Bool.
From Verif Require Import MacroModel.
Import ListNotations.
Local Open Scope string_scope.

(** parentheses are matched *)
Inductive balanced : list tok -> Prop :=
| bal_nil : balanced []
| bal_tok t l : t <> Pun "(" -> t <> Pun ")" -> balanced l -> balanced (t :: l)
| bal_paren a l : balanced a -> balanced l -> balanced (Pun "(" :: a ++ Pun ")" :: l).
(** and no comma is outside of them *)
Inductive no_comma : list tok -> Prop :=
| nc_nil : no_comma []
| nc_tok t l : t <> Pun "(" -> t <> Pun ")" -> t <> Pun "," -> no_comma l -> no_comma (t :: l)
| nc_paren a l : balanced a -> no_comma l -> no_comma (Pun "(" :: a ++ Pun ")" :: l).

(** names the header gives to macros *)
Definition reserved : list string :=
  ["AA_IMPL_REMOVE_PARENS"; "AA_IMPL_TOK_first"; "AA_IMPL_TOK_all_except_first"; "AA_IMPL_DO_GET_FIRST_TOKEN"; "AA_IMPL_GET_FIRST_TOKEN";
   "AA_IMPL_SEPARATE_FIRST_TOK"; "AA_GET_TOKEN"; "AA_IMPL_REMOVE_REQUIRESrequires"; "AA_IMPL_CONCAT_EXPAND"; "AA_IMPL_CONCAT"; "AA_EXPAND";
   "AA_GET_REQUIREMENT"; "AA_GET_ALL_AFTER_REQUIREMENT"; "AA_INJECT_SELF_IN_PARENS"; "AA_INJECT_INTERFACE_T_IN_PARENS"; "anyany_method";
   "anyany_extern_method"; "AA_IMPL_ANYANY_PSEUDOMETHOD"; "anyany_pseudomethod"].
Definition macro_free (l : list tok) : Prop := forall s, In (Id s) l -> ~ In s reserved.

(** text with blanks between all tokens *)
Fixpoint words_from (cur : string) (s : string) : list string :=
  let put l := match cur with "" => l | _ => cur :: l end in
  match s with
  | "" => put []
  | String " " tl => put (words_from "" tl)
  | String c tl => words_from (cur ++ String c "") tl
  end.
Definition classify (s : string) : tok :=
  match s with
  | String c _ =>
      let n := nat_of_ascii c in
      if Nat.leb 48 n && Nat.leb n 57 then Num s
      else if Nat.leb 65 n && Nat.leb n 90 || Nat.leb 97 n && Nat.leb n 122 || Nat.eqb n 95 then Id s else Pun s
  | "" => Pun s
  end.
Definition words (s : string) : list tok := map classify (words_from "" s).

(** ** Uses *)

(** MACRO(name, (params) requires(expr) rest) *)
Definition use (macro name : string) (params expr rest : list tok) : list tok :=
  [Id macro; Pun "("; Id name; Pun ","; Pun "("] ++ params ++ [Pun ")"; Id "requires"; Pun "("] ++ expr ++ [Pun ")"] ++ rest ++ [Pun ")"].
(** MACRO(name, requires(expr) rest) *)
Definition use_pseudo (macro name : string) (expr rest : list tok) : list tok :=
  [Id macro; Pun "("; Id name; Pun ","; Id "requires"; Pun "("] ++ expr ++ [Pun ")"] ++ rest ++ [Pun ")"].

(** ** What a developer would write instead *)

(** the signature, with int for the type of self *)
Definition signature (params rest : list tok) : list tok := words "using signature_type = auto ( int" ++ params ++ words ")" ++ rest ++ words ";".
Definition return_type : list tok := words "using return_type = :: aa :: noexport :: return_type_of < signature_type > ;".
(** the implementation for a type Self *)
Definition implementation (params expr : list tok) : list tok :=
  words "template < typename Self > static auto do_invoke ( Self" ++ params ++ words ") -> decltype ( static_cast < return_type > (" ++ expr ++
  words ") ) { return static_cast < return_type > (" ++ expr ++ words ") ; }".

Definition extern_method_text (name : string) (params expr rest : list tok) : list tok :=
  [Id "struct"; Id name; Pun "{"] ++ signature params rest ++ return_type ++ implementation params expr ++ [Pun "}"].

(** the member function added to anys and references *)
Definition member (name : string) (self cv : string) : list tok :=
  words ("template < typename CRTP , typename Ret , typename ... Args , typename Method > struct make_plugin < CRTP , Ret ( " ++ self ++ " , Args ... ) , Method > { Ret") ++
  [Id name] ++
  words ("( Args ... args ) " ++ cv ++ " { return :: aa :: noexport :: invoke_fn < Method , :: aa :: type_list < Args ... >> { } ( * static_cast < " ++ cv
         ++ " CRTP * > ( this ) , static_cast < Args && > ( args ) ... ) ; } } ;").
Definition method_text (name : string) (params expr rest : list tok) : list tok :=
  [Id "struct"; Id name; Pun "{"] ++ words "private : using method_t =" ++ [Id name] ++ words "; template < typename , typename , typename > struct make_plugin { } ;" ++
  member name "int &" "" ++ member name "const int &" "const" ++
  words "template < typename CRTP , typename Ret , typename ... Args , typename Method > struct make_plugin < CRTP , Ret ( int , Args ... ) , Method > : make_plugin < CRTP , Ret ( const int & , Args ... ) , Method > { } ; public :" ++
  signature params rest ++ words "template < typename CRTP > using plugin = make_plugin < CRTP , signature_type , method_t > ;" ++ return_type ++
  implementation params expr ++ [Pun "}"].

Definition pseudomethod_text (name : string) (expr rest : list tok) : list tok :=
  [Id "struct"; Id name; Pun "{"] ++ words "private : using fn_t = auto ( )" ++ rest ++
  words "; public : using value_type = decltype ( static_cast < fn_t * > ( 0 ) ( ) ) ; template < typename Self > static constexpr auto do_value ( ) -> decltype ( static_cast < value_type > (" ++
  expr ++ words ") , static_cast < fn_t * > ( 0 ) ( ) ) { return static_cast < value_type > (" ++ expr ++ words ") ; } }".

(** the preprocessor turns one text into the other, and into nothing else *)
Definition becomes (text result : list tok) : Prop :=
  exists out, plain out = result /\ (exists n, preprocess n text = Done out) /\ forall n, preprocess n text = NoFuel \/ preprocess n text = Done out.
Definition ill_formed (text : list tok) : Prop :=
  (exists n, preprocess n text = Ill) /\ forall n, preprocess n text = NoFuel \/ preprocess n text = Ill.
