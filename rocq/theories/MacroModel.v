(** Model of the macros anyany_method, anyany_extern_method and anyany_pseudomethod, and of the part of the C++
    preprocessor they need: function-like macros, variadic parameters, the ## operator, rescanning.
    Source: MA = include/anyany/anyany_macro.hpp.  The texts of the macros are copied from the source word for word.

    The preprocessor follows [cpp.replace] in the form of D. Prosser's algorithm: every token carries the set of macros
    it must not be replaced by.  Not modelled: object-like macros, the # operator, __VA_OPT__, directives, literals,
    and the preprocessor of MSVC before /Zc:preprocessor. *)
From Coq Require Import List String Ascii Bool Arith.
Import ListNotations.
Local Open Scope string_scope.

(** ** Tokens *)

Inductive tok : Set := Id (s : string) | Num (s : string) | Pun (s : string).
Definition tok_eqb (a b : tok) : bool :=
  match a, b with
  | Id s, Id t | Num s, Num t | Pun s, Pun t => s =? t
  | _, _ => false
  end.
Definition mem (s : string) (l : list string) : bool := existsb (String.eqb s) l.

Definition is_digit (c : ascii) : bool := let n := nat_of_ascii c in (48 <=? n)%nat && (n <=? 57)%nat.
Definition is_letter (c : ascii) : bool :=
  let n := nat_of_ascii c in ((65 <=? n)%nat && (n <=? 90)%nat) || ((97 <=? n)%nat && (n <=? 122)%nat) || (n =? 95)%nat.
(** blanks; a backslash joins lines *)
Definition is_blank (c : ascii) : bool := let n := nat_of_ascii c in (n <=? 32)%nat || (n =? 92)%nat.
(** punctuators of more than one character, and their beginnings *)
Definition long_puns : list string :=
  ["::"; "->"; "##"; "&&"; "||"; "<<"; ">>"; "=="; "!="; "<="; ">="; "++"; "--"; "+="; "-="; "*="; "/="; ".."; "..."].

Inductive lexing : Set := Between | InId (s : string) | InNum (s : string) | InPun (s : string).
Definition flush (st : lexing) (l : list tok) : list tok :=
  match st with Between => l | InId s => Id s :: l | InNum s => Num s :: l | InPun s => Pun s :: l end.
Definition start_tok (c : ascii) : lexing :=
  let s := String c "" in
  if is_blank c then Between else if is_letter c then InId s else if is_digit c then InNum s else InPun s.
Fixpoint lex_from (st : lexing) (s : string) : list tok :=
  match s with
  | "" => flush st []
  | String c tl =>
      match st with
      | InId p => if is_letter c || is_digit c then lex_from (InId (p ++ String c "")) tl else Id p :: lex_from (start_tok c) tl
      | InNum p =>
          if is_letter c || is_digit c || (nat_of_ascii c =? 46)%nat then lex_from (InNum (p ++ String c "")) tl
          else Num p :: lex_from (start_tok c) tl
      | InPun p => if mem (p ++ String c "") long_puns then lex_from (InPun (p ++ String c "")) tl else Pun p :: lex_from (start_tok c) tl
      | Between => lex_from (start_tok c) tl
      end
  end.
Definition lex (s : string) : list tok := lex_from Between s.

(** ** Macros *)

Record macro : Set := Macro { mc_params : list string; mc_variadic : bool; mc_body : list tok }.
Notation macros := (list (string * macro)).
Fixpoint find (D : macros) (s : string) : option macro :=
  match D with [] => None | (n, m) :: tl => if s =? n then Some m else find tl s end.

Definition lparen : tok := Pun "(".
Definition rparen : tok := Pun ")".
Definition comma : tok := Pun ",".
Definition paste_op : tok := Pun "##".
Definition va_args : string := "__VA_ARGS__".

(** the parameter list of a definition: names, whether it ends with ..., and the body *)
Fixpoint read_params (l : list tok) : option (list string * bool * list tok) :=
  match l with
  | Pun ")" :: body => Some ([], false, body)
  | Pun "..." :: Pun ")" :: body => Some ([], true, body)
  | Id p :: Pun ")" :: body => Some ([p], false, body)
  | Id p :: Pun "," :: tl => match read_params tl with Some (ps, v, body) => Some (p :: ps, v, body) | None => None end
  | _ => None
  end.
Definition read_define (s : string) : option (string * macro) :=
  match lex s with
  | Pun "#" :: Id "define" :: Id n :: Pun "(" :: tl =>
      match read_params tl with Some (ps, v, body) => Some (n, Macro ps v body) | None => None end
  | _ => None
  end.

(** ** Replacement *)

Definition htok : Set := tok * list string.
Definition inter (a b : list string) : list string := filter (fun x => mem x b) a.
Definition hide (h : list string) (l : list htok) : list htok := map (fun t => (fst t, snd t ++ h)%list) l.

(** Done: the result.  Ill: ill-formed.  NoFuel: not finished *)
Inductive outcome : Set := Done (l : list htok) | Ill | NoFuel.
Definition prepend (l : list htok) (o : outcome) : outcome := match o with Done r => Done (l ++ r)%list | o => o end.
Definition andThen (o : outcome) (f : list htok -> outcome) : outcome := match o with Done r => f r | o => o end.

(** one argument of a call: up to the closing parenthesis, or to a comma if [split]; parentheses nest.
    Gives the argument, whether it was the last, the set of the closing parenthesis, and the rest *)
Fixpoint one_arg (split : bool) (depth : nat) (l : list htok) : option (list htok * bool * list string * list htok) :=
  match l with
  | [] => None
  | (t, h) :: tl =>
      let keep d := match one_arg split d tl with Some (a, e, h', r) => Some ((t, h) :: a, e, h', r) | None => None end in
      if tok_eqb t lparen then keep (S depth)
      else if tok_eqb t rparen then match depth with O => Some ([], true, h, tl) | S d => keep d end
      else if tok_eqb t comma && (depth =? 0)%nat && split then Some ([], false, h, tl)
      else keep depth
  end.
(** as many arguments as there are parameters; the variable ones, commas included, are the last; a macro with
    parameters a, ... may be given no variable ones *)
Fixpoint read_args (ps : list string) (variadic : bool) (l : list htok) : option (list (list htok) * list string * list htok) :=
  match ps with
  | [] =>
      match one_arg false 0 l with
      | Some (a, true, h, r) => if variadic then Some ([a], h, r) else match a with [] => Some ([], h, r) | _ => None end
      | _ => None
      end
  | p :: ps' =>
      match one_arg true 0 l with
      | Some (a, false, _, r) =>
          match ps', variadic with
          | [], false => None (* too many *)
          | _, _ => match read_args ps' variadic r with Some (l', h, r') => Some (a :: l', h, r') | None => None end
          end
      | Some (a, true, h, r) =>
          match ps', variadic with
          | [], false => Some ([a], h, r)
          | [], true => Some ([a; []], h, r)
          | _, _ => None (* too few *)
          end
      | None => None
      end
  end.

(** the ## operator: the tokens are joined if the result is one token; an empty operand gives the other *)
Definition paste (a b : htok) : option htok :=
  match fst a, fst b with
  | Id s, Id t | Id s, Num t => Some (Id (s ++ t), inter (snd a) (snd b))
  | Pun s, Pun t => if mem (s ++ t) long_puns then Some (Pun (s ++ t), inter (snd a) (snd b)) else None
  | _, _ => None
  end.
Fixpoint glue (l r : list htok) : option (list htok) :=
  match l, r with
  | [], _ => Some r
  | [a], b :: r' => match paste a b with Some c => Some (c :: r') | None => None end
  | [a], [] => Some [a]
  | a :: l', _ => match glue l' r with Some x => Some (a :: x) | None => None end
  end.

Fixpoint arg_of (ps : list string) (args : list (list htok)) (t : tok) : option (list htok) :=
  match t, ps, args with
  | Id s, p :: ps', a :: args' => if s =? p then Some a else arg_of ps' args' t
  | _, _, _ => None
  end.
Definition param_names (m : macro) : list string := if mc_variadic m then (mc_params m ++ [va_args])%list else mc_params m.

(** the body with arguments put in: expanded, except next to ##.  [os]: what has been put out so far *)
Fixpoint subst (ex : list htok -> outcome) (ps : list string) (args : list (list htok)) (body : list tok) (os : list htok) : outcome :=
  match body with
  | [] => Done os
  | t :: tl =>
      if tok_eqb t paste_op then
        match tl with
        | [] => Ill
        | u :: tl' =>
            match glue os (match arg_of ps args u with Some a => a | None => [(u, [])] end) with
            | Some os' => subst ex ps args tl' os'
            | None => Ill
            end
        end
      else
        match arg_of ps args t with
        | Some a =>
            match tl with
            | u :: _ =>
                if tok_eqb u paste_op then subst ex ps args tl (os ++ a)%list (* a left operand is not expanded *)
                else andThen (ex a) (fun a' => subst ex ps args tl (os ++ a')%list)
            | [] => andThen (ex a) (fun a' => Done (os ++ a')%list)
            end
        | None => subst ex ps args tl (os ++ [(t, [])])%list
        end
  end.

Fixpoint expand (D : macros) (n : nat) (l : list htok) : outcome :=
  match n with
  | O => NoFuel
  | S n' =>
      match l with
      | [] => Done []
      | (t, h) :: tl =>
          let skip := prepend [(t, h)] (expand D n' tl) in
          match t with
          | Id s =>
              if mem s h then skip
              else
                match find D s, tl with
                | Some m, (u, _) :: tl' =>
                    if tok_eqb u lparen then
                      match read_args (mc_params m) (mc_variadic m) tl' with
                      | Some (args, h', r) =>
                          andThen (subst (expand D n') (param_names m) args (mc_body m) [])
                                  (fun b => expand D n' (hide (s :: inter h h') b ++ r)%list)
                      | None => Ill
                      end
                    else skip
                | _, _ => skip
                end
          | _ => skip
          end
      end
  end.

(** tokens of the program text, and back *)
Definition fresh (l : list tok) : list htok := map (fun t => (t, [])) l.
Definition plain (l : list htok) : list tok := map fst l.

(** ** The macros of the header *)

(** MA 22 *)
Definition src_AA_IMPL_REMOVE_PARENS : string :=
"#define AA_IMPL_REMOVE_PARENS(...) __VA_ARGS__"%string.
(** MA 23 *)
Definition src_AA_IMPL_TOK_first : string :=
"#define AA_IMPL_TOK_first(a, ...) a"%string.
(** MA 24 *)
Definition src_AA_IMPL_TOK_all_except_first : string :=
"#define AA_IMPL_TOK_all_except_first(a, ...) __VA_ARGS__"%string.
(** MA 25 *)
Definition src_AA_IMPL_DO_GET_FIRST_TOKEN : string :=
"#define AA_IMPL_DO_GET_FIRST_TOKEN(out, x, ...) AA_IMPL_TOK_##out(x, __VA_ARGS__)"%string.
(** MA 26 *)
Definition src_AA_IMPL_GET_FIRST_TOKEN : string :=
"#define AA_IMPL_GET_FIRST_TOKEN(out, ...) AA_IMPL_DO_GET_FIRST_TOKEN(out, __VA_ARGS__)"%string.
(** MA 27 *)
Definition src_AA_IMPL_SEPARATE_FIRST_TOK : string :=
"#define AA_IMPL_SEPARATE_FIRST_TOK(...) (__VA_ARGS__),"%string.
(** MA 28 *)
Definition src_AA_GET_TOKEN : string :=
"#define AA_GET_TOKEN(out, ...) AA_IMPL_GET_FIRST_TOKEN(out, AA_IMPL_SEPARATE_FIRST_TOK __VA_ARGS__)"%string.
(** MA 29 *)
Definition src_AA_IMPL_REMOVE_REQUIRESrequires : string :=
"#define AA_IMPL_REMOVE_REQUIRESrequires(...) (__VA_ARGS__)"%string.
(** MA 30 *)
Definition src_AA_IMPL_CONCAT_EXPAND : string :=
"#define AA_IMPL_CONCAT_EXPAND(a, b) a##b"%string.
(** MA 31 *)
Definition src_AA_IMPL_CONCAT : string :=
"#define AA_IMPL_CONCAT(a, b) AA_IMPL_CONCAT_EXPAND(a, b)"%string.
(** MA 32 *)
Definition src_AA_EXPAND : string :=
"#define AA_EXPAND(a) a"%string.
(** MA 33-35 *)
Definition src_AA_GET_REQUIREMENT : string :=
"#define AA_GET_REQUIREMENT(...) \
  AA_EXPAND(AA_IMPL_REMOVE_PARENS AA_GET_TOKEN( \
      first, AA_IMPL_CONCAT(AA_IMPL_REMOVE_REQUIRES, AA_GET_TOKEN(all_except_first, __VA_ARGS__))))"%string.
(** MA 36-38 *)
Definition src_AA_GET_ALL_AFTER_REQUIREMENT : string :=
"#define AA_GET_ALL_AFTER_REQUIREMENT(...) \
  AA_GET_TOKEN(all_except_first, \
               AA_IMPL_CONCAT(AA_IMPL_REMOVE_REQUIRES, AA_GET_TOKEN(all_except_first, __VA_ARGS__)))"%string.
(** MA 39 *)
Definition src_AA_INJECT_SELF_IN_PARENS : string :=
"#define AA_INJECT_SELF_IN_PARENS(...) (Self __VA_ARGS__)"%string.
(** MA 40 *)
Definition src_AA_INJECT_INTERFACE_T_IN_PARENS : string :=
"#define AA_INJECT_INTERFACE_T_IN_PARENS(...) (int __VA_ARGS__)"%string.
(** MA 81-116 *)
Definition src_anyany_method : string :=
"#define anyany_method(NAME, ...) \
  struct NAME { \
   private: \
    using method_t = NAME; \
    template <typename, typename, typename> \
    struct make_plugin {}; \
    template <typename CRTP, typename Ret, typename... Args, typename Method> \
    struct make_plugin<CRTP, Ret(int&, Args...), Method> { \
      Ret NAME(Args... args) { \
        return ::aa::noexport::invoke_fn<Method, ::aa::type_list<Args...>>{}(*static_cast<CRTP*>(this), \
                                                                             static_cast<Args&&>(args)...); \
      } \
    }; \
    template <typename CRTP, typename Ret, typename... Args, typename Method> \
    struct make_plugin<CRTP, Ret(const int&, Args...), Method> { \
      Ret NAME(Args... args) const { \
        return ::aa::noexport::invoke_fn<Method, ::aa::type_list<Args...>>{}( \
            *static_cast<const CRTP*>(this), static_cast<Args&&>(args)...); \
      } \
    }; \
    template <typename CRTP, typename Ret, typename... Args, typename Method> \
    struct make_plugin<CRTP, Ret(int, Args...), Method> \
        : make_plugin<CRTP, Ret(const int&, Args...), Method> {}; \
 \
   public: \
    using signature_type = auto AA_EXPAND(AA_INJECT_INTERFACE_T_IN_PARENS AA_GET_TOKEN(first, __VA_ARGS__)) \
        AA_GET_ALL_AFTER_REQUIREMENT(__VA_ARGS__); \
    template <typename CRTP> \
    using plugin = make_plugin<CRTP, signature_type, method_t>; \
    using return_type = ::aa::noexport::return_type_of<signature_type>; \
    template <typename Self> \
    static auto do_invoke AA_EXPAND(AA_INJECT_SELF_IN_PARENS AA_GET_TOKEN(first, __VA_ARGS__)) \
        -> decltype(static_cast<return_type>(AA_GET_REQUIREMENT(__VA_ARGS__))) { \
      return static_cast<return_type>(AA_GET_REQUIREMENT(__VA_ARGS__)); \
    } \
  }"%string.
(** MA 119-129 *)
Definition src_anyany_extern_method : string :=
"#define anyany_extern_method(NAME, ...) \
  struct NAME { \
    using signature_type = auto AA_EXPAND(AA_INJECT_INTERFACE_T_IN_PARENS AA_GET_TOKEN(first, __VA_ARGS__)) \
        AA_GET_ALL_AFTER_REQUIREMENT(__VA_ARGS__); \
    using return_type = ::aa::noexport::return_type_of<signature_type>; \
    template <typename Self> \
    static auto do_invoke AA_EXPAND(AA_INJECT_SELF_IN_PARENS AA_GET_TOKEN(first, __VA_ARGS__)) \
        -> decltype(static_cast<return_type>(AA_GET_REQUIREMENT(__VA_ARGS__))) { \
      return static_cast<return_type>(AA_GET_REQUIREMENT(__VA_ARGS__)); \
    } \
  }"%string.
(** MA 131-143 *)
Definition src_AA_IMPL_ANYANY_PSEUDOMETHOD : string :=
"#define AA_IMPL_ANYANY_PSEUDOMETHOD(NAME, ...) \
  struct NAME { \
   private: \
    using fn_t = auto() AA_GET_ALL_AFTER_REQUIREMENT(__VA_ARGS__); \
 \
   public: \
    using value_type = decltype(static_cast<fn_t*>(0)()); \
    template <typename Self> \
    static constexpr auto do_value() \
        -> decltype(static_cast<value_type>(AA_GET_REQUIREMENT(__VA_ARGS__)), static_cast<fn_t*>(0)()) { \
      return static_cast<value_type>(AA_GET_REQUIREMENT(__VA_ARGS__)); \
    } \
  }"%string.
(** MA 152 *)
Definition src_anyany_pseudomethod : string :=
"#define anyany_pseudomethod(NAME, ...) AA_IMPL_ANYANY_PSEUDOMETHOD(NAME, () __VA_ARGS__)"%string.
Definition sources : list string :=
  [src_AA_IMPL_REMOVE_PARENS;
   src_AA_IMPL_TOK_first;
   src_AA_IMPL_TOK_all_except_first;
   src_AA_IMPL_DO_GET_FIRST_TOKEN;
   src_AA_IMPL_GET_FIRST_TOKEN;
   src_AA_IMPL_SEPARATE_FIRST_TOK;
   src_AA_GET_TOKEN;
   src_AA_IMPL_REMOVE_REQUIRESrequires;
   src_AA_IMPL_CONCAT_EXPAND;
   src_AA_IMPL_CONCAT;
   src_AA_EXPAND;
   src_AA_GET_REQUIREMENT;
   src_AA_GET_ALL_AFTER_REQUIREMENT;
   src_AA_INJECT_SELF_IN_PARENS;
   src_AA_INJECT_INTERFACE_T_IN_PARENS;
   src_anyany_method;
   src_anyany_extern_method;
   src_AA_IMPL_ANYANY_PSEUDOMETHOD;
   src_anyany_pseudomethod].

Definition header : macros := List.concat (map (fun s => match read_define s with Some d => [d] | None => [] end) sources).

(** what the compiler sees for a use of a macro *)
Definition preprocess (n : nat) (text : list tok) : outcome := expand header n (fresh text).
