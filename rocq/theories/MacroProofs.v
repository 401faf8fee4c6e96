(** Proofs about the method macros.  The preprocessor is run on texts with holes, and filling the holes with token
    lists that contain no macros is shown to commute with it. *)
From Coq Require Import String Ascii Bool Arith Lia List.
From Verif Require Import MacroModel MacroSpec.
Import ListNotations.
Local Open Scope list_scope.

Lemma tok_eqb_eq a b : tok_eqb a b = true <-> a = b.
Proof. destruct a, b; cbn; rewrite ?String.eqb_eq; split; intros H; try discriminate; now inversion H. Qed.
Lemma tok_eqb_ne a b : a <> b -> tok_eqb a b = false.
Proof. intros H. destruct (tok_eqb a b) eqn:E; [|easy]. now apply tok_eqb_eq in E. Qed.

(** ** More fuel does not change the result *)
Definition le_out (a b : outcome) : Prop := a = NoFuel \/ a = b.
Lemma subst_mono ex ex' ps args body : (forall l, le_out (ex l) (ex' l)) -> forall os, le_out (subst ex ps args body os) (subst ex' ps args body os).
Proof.
  intros H. remember (length body) as n eqn:Hn. assert (Hle : length body <= n) by lia. clear Hn. revert body Hle.
  induction n as [|n IH]; intros [|t tl] Hle os; cbn in Hle; try (now right); try lia. cbn [subst].
  destruct (tok_eqb t paste_op).
  - destruct tl as [|u tl']; [now right|]. destruct (glue _ _); [|now right]. apply IH. cbn in Hle. lia.
  - destruct (arg_of ps args t) as [a|].
    + destruct tl as [|u tl'].
      * destruct (H a) as [-> | ->]; [now left|now right].
      * destruct (tok_eqb u paste_op); [apply IH; cbn in *; lia|].
        destruct (H a) as [-> | ->]; [now left|]. destruct (ex' a); cbn [andThen]; [|now right|now right]. apply IH. cbn in *. lia.
    + apply IH. lia.
Qed.
Lemma expand_mono D n m l : n <= m -> le_out (expand D n l) (expand D m l).
Proof.
  revert m l. induction n as [|n IH]; intros m l Hm; [now left|]. destruct m as [|m]; [lia|].
  assert (IH' : forall l, le_out (expand D n l) (expand D m l)) by (intros; apply IH; lia). clear IH Hm.
  destruct l as [|[t h] tl]; [now right|]. cbn [expand].
  assert (Hs : le_out (prepend [(t, h)] (expand D n tl)) (prepend [(t, h)] (expand D m tl))).
  { destruct (IH' tl) as [-> | ->]; [now left|now right]. }
  destruct t as [s|s|s]; try exact Hs. destruct (mem s h); [exact Hs|]. destruct (find D s) as [mc|]; [|exact Hs].
  destruct tl as [|[u hu] tl']; [exact Hs|]. destruct (tok_eqb u lparen); [|exact Hs]. destruct (read_args _ _ tl') as [[[args h'] r]|]; [|now right].
  destruct (subst_mono _ _ (param_names mc) args (mc_body mc) IH' []) as [-> | ->]; [now left|].
  destruct (subst _ _ _ _ _); cbn [andThen]; [|now right|now right]. apply IH'.
Qed.

(** ** Texts with holes *)
Inductive sym : Set := Tk (t : htok) | Hole (i : nat) (h : list string).
Inductive houtcome : Set := HDone (l : list sym) | HIll | HNoFuel | HStuck.

Section Holes.
  Context (D : macros).
  (** may hole i contain commas? *)
  Context (cm : nat -> bool).

  Inductive aresult : Set := AOk (a : list sym) (last : bool) (h : list string) (r : list sym) | ANone | AStuck.
  Definition akeep (s : sym) (x : aresult) : aresult := match x with AOk a e h r => AOk (s :: a) e h r | x => x end.
  Fixpoint one_argH (split : bool) (depth : nat) (l : list sym) : aresult :=
    match l with
    | [] => ANone
    | Hole i h :: tl => if (depth =? 0) && split && cm i then AStuck else akeep (Hole i h) (one_argH split depth tl)
    | Tk (t, h) :: tl =>
        if tok_eqb t lparen then akeep (Tk (t, h)) (one_argH split (S depth) tl)
        else if tok_eqb t rparen then match depth with O => AOk [] true h tl | S d => akeep (Tk (t, h)) (one_argH split d tl) end
        else if tok_eqb t comma && (depth =? 0) && split then AOk [] false h tl
        else akeep (Tk (t, h)) (one_argH split depth tl)
    end.
  Inductive lresult : Set := LOk (l : list (list sym)) (h : list string) (r : list sym) | LNone | LStuck.
  Fixpoint read_argsH (ps : list string) (variadic : bool) (l : list sym) : lresult :=
    match ps with
    | [] =>
        match one_argH false 0 l with
        | AOk a true h r => if variadic then LOk [a] h r else match a with [] => LOk [] h r | _ => LStuck end
        | AOk _ false _ _ | ANone => LNone
        | AStuck => LStuck
        end
    | p :: ps' =>
        match one_argH true 0 l with
        | AOk a false _ r =>
            match ps', variadic with
            | [], false => LNone
            | _, _ => match read_argsH ps' variadic r with LOk l' h r' => LOk (a :: l') h r' | x => x end
            end
        | AOk a true h r =>
            match ps', variadic with
            | [], false => LOk [a] h r
            | [], true => LOk [a; []] h r
            | _, _ => LNone
            end
        | ANone => LNone
        | AStuck => LStuck
        end
    end.
  Fixpoint glueH (l r : list sym) : option (option (list sym)) :=
    match l, r with
    | [], _ => Some (Some r)
    | _, [] => Some (Some l)
    | [Tk a], Tk b :: r' => match paste a b with Some c => Some (Some (Tk c :: r')) | None => Some None end
    | [_], _ => None
    | a :: l', _ => match glueH l' r with Some (Some x) => Some (Some (a :: x)) | x => x end
    end.
  Fixpoint arg_ofH (ps : list string) (args : list (list sym)) (t : tok) : option (list sym) :=
    match t, ps, args with
    | Id s, p :: ps', a :: args' => if String.eqb s p then Some a else arg_ofH ps' args' t
    | _, _, _ => None
    end.
  Definition andThenH (o : houtcome) (f : list sym -> houtcome) : houtcome := match o with HDone r => f r | o => o end.
  Definition prependH (l : list sym) (o : houtcome) : houtcome := match o with HDone r => HDone (l ++ r) | o => o end.
  Fixpoint substH (ex : list sym -> houtcome) (ps : list string) (args : list (list sym)) (body : list tok) (os : list sym) : houtcome :=
    match body with
    | [] => HDone os
    | t :: tl =>
        if tok_eqb t paste_op then
          match tl with
          | [] => HIll
          | u :: tl' =>
              match glueH os (match arg_ofH ps args u with Some a => a | None => [Tk (u, [])] end) with
              | Some (Some os') => substH ex ps args tl' os'
              | Some None => HIll
              | None => HStuck
              end
          end
        else
          match arg_ofH ps args t with
          | Some a =>
              match tl with
              | u :: _ =>
                  if tok_eqb u paste_op then substH ex ps args tl (os ++ a)
                  else andThenH (ex a) (fun a' => substH ex ps args tl (os ++ a'))
              | [] => andThenH (ex a) (fun a' => HDone (os ++ a'))
              end
          | None => substH ex ps args tl (os ++ [Tk (t, [])])
          end
    end.
  Definition hideH (h : list string) (l : list sym) : list sym :=
    map (fun s => match s with Tk t => Tk (fst t, snd t ++ h) | Hole i k => Hole i (k ++ h) end) l.
  Fixpoint expandH (n : nat) (l : list sym) : houtcome :=
    match n with
    | O => HNoFuel
    | S n' =>
        match l with
        | [] => HDone []
        | Hole i h :: tl => prependH [Hole i h] (expandH n' tl)
        | Tk (t, h) :: tl =>
            let skip := prependH [Tk (t, h)] (expandH n' tl) in
            match t with
            | Id s =>
                if mem s h then skip
                else
                  match find D s, tl with
                  | Some m, Tk (u, _) :: tl' =>
                      if tok_eqb u lparen then
                        match read_argsH (mc_params m) (mc_variadic m) tl' with
                        | LOk args h' r =>
                            andThenH (substH (expandH n') (param_names m) args (mc_body m) [])
                                     (fun b => expandH n' (hideH (s :: inter h h') b ++ r))
                        | LNone => HIll
                        | LStuck => HStuck
                        end
                      else skip
                  | Some _, Hole _ _ :: _ => HStuck
                  | _, _ => skip
                  end
            | _ => skip
            end
        end
    end.

  (** *** Filling *)
  Context (f : nat -> list tok).
  Context (Hbal : forall i, balanced (f i)) (Hnc : forall i, cm i = false -> no_comma (f i)) (Hfree : forall i s, In (Id s) (f i) -> find D s = None).
  Definition fill1 (s : sym) : list htok := match s with Tk t => [t] | Hole i h => map (fun t => (t, h)) (f i) end.
  Definition fill (l : list sym) : list htok := flat_map fill1 l.
  Lemma fill_app a b : fill (a ++ b) = fill a ++ fill b.
  Proof. apply flat_map_app. Qed.
  Lemma fill_hide h l : fill (hideH h l) = hide h (fill l).
  Proof.
    induction l as [|s l IH]; [easy|]. cbn [hideH map]. change (fill (?a :: ?b)) with (fill1 a ++ fill b). unfold hide in *. rewrite map_app. f_equal; [|exact IH].
    destruct s as [t|i k]; [easy|]. cbn. now rewrite map_map.
  Qed.

  Notation sh h := (map (fun t : tok => (t, h : list string))).
  Definition okeep (u : list htok) (x : option (list htok * bool * list string * list htok)) :=
    match x with Some (a, e, h, r) => Some (u ++ a, e, h, r) | None => None end.
  Lemma okeep_nil x : okeep [] x = x.
  Proof. now destruct x as [[[[? ?] ?] ?]|]. Qed.
  Lemma okeep_app u v x : okeep u (okeep v x) = okeep (u ++ v) x.
  Proof. destruct x as [[[[? ?] ?] ?]|]; [|easy]. cbn. now rewrite app_assoc. Qed.

  Lemma one_arg_tok split d t h l : t <> lparen -> t <> rparen -> (t = comma -> d <> 0 \/ split = false) ->
    one_arg split d ((t, h) :: l) = okeep [(t, h)] (one_arg split d l).
  Proof.
    intros H1 H2 H3. cbn [one_arg]. rewrite (tok_eqb_ne _ _ H1), (tok_eqb_ne _ _ H2).
    destruct (tok_eqb t comma) eqn:E; [|cbn; now destruct (one_arg split d l) as [[[[? ?] ?] ?]|]].
    apply tok_eqb_eq in E. destruct (H3 E) as [Hd | ->].
    - apply Nat.eqb_neq in Hd. rewrite Hd. cbn. now destruct (one_arg split d l) as [[[[? ?] ?] ?]|].
    - rewrite andb_false_r. now destruct (one_arg false d l) as [[[[? ?] ?] ?]|].
  Qed.
  Lemma one_arg_open split d h l : one_arg split d ((lparen, h) :: l) = okeep [(lparen, h)] (one_arg split (S d) l).
  Proof. cbn. now destruct (one_arg split (S d) l) as [[[[? ?] ?] ?]|]. Qed.
  Lemma one_arg_close split d h l : one_arg split (S d) ((rparen, h) :: l) = okeep [(rparen, h)] (one_arg split d l).
  Proof. cbn. now destruct (one_arg split d l) as [[[[? ?] ?] ?]|]. Qed.
  Lemma one_arg_paren split d h a b l :
    (forall l, one_arg split (S d) (sh h a ++ l) = okeep (sh h a) (one_arg split (S d) l)) -> (forall l, one_arg split d (sh h b ++ l) = okeep (sh h b) (one_arg split d l)) ->
    one_arg split d (sh h (lparen :: a ++ rparen :: b) ++ l) = okeep (sh h (lparen :: a ++ rparen :: b)) (one_arg split d l).
  Proof.
    intros Ha Hb. cbn [map]. rewrite map_app. cbn [map]. cbn [app]. rewrite <- app_assoc. cbn [app]. rewrite one_arg_open, Ha, one_arg_close, Hb, !okeep_app. now rewrite <- !app_assoc.
  Qed.
  Lemma one_arg_balanced split d h u : balanced u -> d <> 0 \/ split = false -> forall l, one_arg split d (sh h u ++ l) = okeep (sh h u) (one_arg split d l).
  Proof.
    intros Hu. revert d. induction Hu as [|t u H1 H2 Hu IH|a u Ha IHa Hu IH]; intros d Hd l.
    - now rewrite okeep_nil.
    - cbn [map app]. rewrite one_arg_tok by easy. rewrite IH by easy. now rewrite okeep_app.
    - apply one_arg_paren; [|now apply IH]. apply IHa. now left.
  Qed.
  Lemma one_arg_no_comma split d h u : no_comma u -> forall l, one_arg split d (sh h u ++ l) = okeep (sh h u) (one_arg split d l).
  Proof.
    intros Hu. induction Hu as [|t u H1 H2 H3 Hu IH|a u Ha Hu IH]; intros l.
    - now rewrite okeep_nil.
    - cbn [map app]. rewrite one_arg_tok by easy. rewrite IH by easy. now rewrite okeep_app.
    - apply one_arg_paren; [|now apply IH]. apply one_arg_balanced; [easy|now left].
  Qed.

  Definition aval (x : aresult) : option (list htok * bool * list string * list htok) :=
    match x with AOk a e h r => Some (fill a, e, h, fill r) | _ => None end.
  Lemma aval_keep s x : x <> AStuck -> aval (akeep s x) = okeep (fill1 s) (aval x).
  Proof. now destruct x. Qed.
  Lemma one_arg_fill split l : forall d, one_argH split d l <> AStuck -> one_arg split d (fill l) = aval (one_argH split d l).
  Proof.
    induction l as [|[[t h]|i h] l IH]; intros d Hs; [easy| |].
    - cbn [one_argH] in *. change (fill (Tk (t, h) :: l)) with ((t, h) :: fill l).
      assert (Hk : forall d', akeep (Tk (t, h)) (one_argH split d' l) <> AStuck -> one_argH split d' l <> AStuck) by (intros d' H E; now rewrite E in H).
      destruct (tok_eqb t lparen) eqn:E1.
      { apply tok_eqb_eq in E1. subst t. rewrite one_arg_open. rewrite aval_keep by auto. now rewrite IH by auto. }
      destruct (tok_eqb t rparen) eqn:E2.
      { apply tok_eqb_eq in E2. subst t. destruct d as [|d]; [easy|]. rewrite one_arg_close. rewrite aval_keep by auto. now rewrite IH by auto. }
      destruct (tok_eqb t comma && (d =? 0) && split) eqn:E3.
      { cbn [one_arg]. now rewrite E1, E2, E3. }
      rewrite one_arg_tok.
      + rewrite aval_keep by auto. now rewrite IH by auto.
      + intros ->. now rewrite (proj2 (tok_eqb_eq _ _) eq_refl) in E1.
      + intros ->. now rewrite (proj2 (tok_eqb_eq _ _) eq_refl) in E2.
      + intros ->. rewrite (proj2 (tok_eqb_eq _ _) eq_refl) in E3. destruct split; [|now right]. left. rewrite andb_true_r in E3. cbn [andb] in E3. now apply Nat.eqb_neq.
    - cbn [one_argH] in *. change (fill (Hole i h :: l)) with (sh h (f i) ++ fill l). destruct ((d =? 0) && split && cm i) eqn:E; [easy|].
      assert (Hk : one_argH split d l <> AStuck) by (intros E'; now rewrite E' in Hs). rewrite aval_keep by easy. rewrite <- IH by easy. cbn [fill1].
      destruct (cm i) eqn:Ec; [|now apply one_arg_no_comma, Hnc]. apply one_arg_balanced; [easy|]. destruct split; [|now right]. left.
      rewrite !andb_true_r in E. now apply Nat.eqb_neq.
  Qed.
  Definition lval (x : lresult) : option (list (list htok) * list string * list htok) :=
    match x with LOk l h r => Some (map fill l, h, fill r) | _ => None end.
  Lemma read_args_fill ps v : forall l, read_argsH ps v l <> LStuck -> read_args ps v (fill l) = lval (read_argsH ps v l).
  Proof.
    induction ps as [|p ps IH]; intros l Hs; cbn [read_args read_argsH] in *.
    - rewrite one_arg_fill by (intros E; now rewrite E in Hs). destruct (one_argH false 0 l) as [a [|] h r| |]; try easy. cbn [aval].
      destruct v; [easy|]. now destruct a.
    - rewrite one_arg_fill by (intros E; now rewrite E in Hs). destruct (one_argH true 0 l) as [a [|] h r| |]; try easy; cbn [aval].
      + now destruct ps, v.
      + assert (Hx : read_argsH ps v r <> LStuck -> match read_args ps v (fill r) with Some (l', h0, r') => Some (fill a :: l', h0, r') | None => None end =
                     lval match read_argsH ps v r with LOk l' h0 r' => LOk (a :: l') h0 r' | x => x end).
        { intros H. rewrite IH by easy. now destruct (read_argsH ps v r). }
        assert (Hr : match read_argsH ps v r with LOk l' h0 r' => LOk (a :: l') h0 r' | x => x end <> LStuck -> read_argsH ps v r <> LStuck).
        { intros H E. now rewrite E in H. }
        destruct ps as [|q ps]; [destruct v; [auto|easy]|auto].
  Qed.

  Lemma glue_nil l : glue l [] = Some l.
  Proof. induction l as [|a [|b l] IH]; [easy|easy|]. cbn [glue] in *. now rewrite IH. Qed.
  Lemma glue_snoc x a b r : glue (x ++ [a]) (b :: r) = match paste a b with Some c => Some (x ++ c :: r) | None => None end.
  Proof.
    induction x as [|y x IH]; [easy|]. cbn [app]. destruct (x ++ [a]) as [|z w] eqn:E; [now destruct x|]. cbn [glue] in *. rewrite IH.
    now destruct (paste a b).
  Qed.
  Lemma glueH_snoc x a r : r <> [] -> glueH (x ++ [a]) r =
    match a, r with Tk a, Tk b :: r' => match paste a b with Some c => Some (Some (x ++ Tk c :: r')) | None => Some None end | _, _ => None end.
  Proof.
    intros Hr. destruct r as [|b r]; [easy|]. induction x as [|y x IH].
    - destruct a as [a|], b as [b|]; easy.
    - cbn [app]. destruct (x ++ [a]) as [|z w] eqn:E; [now destruct x|]. transitivity (match glueH (z :: w) (b :: r) with Some (Some u) => Some (Some (y :: u)) | u => u end).
      { now destruct y. }
      rewrite IH. destruct a as [a|], b as [b|]; try easy. now destruct (paste a b).
  Qed.
  Lemma glue_fill l r x : glueH l r = Some x -> glue (fill l) (fill r) = option_map fill x.
  Proof.
    destruct r as [|b r].
    { intros H. assert (x = Some l) as -> by (destruct l as [|[a|] [|]]; cbn in H; congruence). apply glue_nil. }
    destruct l as [|a l] using rev_ind; [intros [= <-]; easy|]. rewrite glueH_snoc by easy. rewrite fill_app. destruct a as [a|]; [|easy]. destruct b as [b|]; [|easy].
    change (fill (Tk b :: r)) with (b :: fill r). change (fill [Tk a]) with [a]. rewrite glue_snoc. destruct (paste a b) as [c|]; intros [= <-]; [|easy].
    cbn. now rewrite fill_app.
  Qed.
  Lemma arg_of_fill ps args t : arg_of ps (map fill args) t = option_map fill (arg_ofH ps args t).
  Proof.
    destruct t as [s|s|s]; [|now destruct ps|now destruct ps]. revert args. induction ps as [|p ps IH]; intros [|a args]; try easy. cbn. destruct (String.eqb s p); [easy|]. apply IH.
  Qed.

  (** the outcome of the text with holes decides that of the filled one *)
  Definition agrees (ho : houtcome) (g : nat -> outcome) : Prop :=
    match ho with
    | HDone l => exists n, forall m, n <= m -> g m = Done (fill l)
    | HIll => exists n, forall m, n <= m -> g m = Ill
    | HNoFuel | HStuck => True
    end.
  Lemma agrees_ext ho g g' n : (forall m, n <= m -> g' m = g m) -> agrees ho g -> agrees ho g'.
  Proof. intros H. destruct ho; cbn; try easy; intros (k & Hk); exists (Nat.max n k); intros m Hm; rewrite H by lia; apply Hk; lia. Qed.
  Lemma subst_fill exH (ex : nat -> list htok -> outcome) ps args body : (forall l, agrees (exH l) (fun m => ex m (fill l))) ->
    forall os, agrees (substH exH ps args body os) (fun m => subst (ex m) ps (map fill args) body (fill os)).
  Proof.
    intros H. remember (length body) as n eqn:Hn. assert (Hle : length body <= n) by lia. clear Hn. revert body Hle.
    induction n as [|n IH]; intros [|t tl] Hle os; cbn in Hle; try lia; try (now exists 0). cbn [subst substH].
    assert (Hthen : forall a k kH, (forall a', agrees (kH a') (fun m => k m (fill a'))) -> agrees (andThenH (exH a) kH) (fun m => andThen (ex m (fill a)) (k m))).
    { intros a k kH Hk. specialize (H a). destruct (exH a) as [a'| | |]; cbn [andThenH]; try easy.
      - destruct H as (n0 & H). apply (agrees_ext _ (fun m => k m (fill a')) _ n0); [|apply Hk]. intros m Hm. cbn. now rewrite H.
      - destruct H as (n0 & H). exists n0. intros m Hm. cbn. now rewrite H. }
    destruct (tok_eqb t paste_op).
    - destruct tl as [|u tl']; [now exists 0|].
      assert (Hu : match arg_of ps (map fill args) u with Some a => a | None => [(u, [])] end = fill (match arg_ofH ps args u with Some a => a | None => [Tk (u, [])] end)).
      { rewrite arg_of_fill. now destruct (arg_ofH ps args u). }
      rewrite Hu. destruct (glueH os _) as [x|] eqn:Hg; [|easy]. apply glue_fill in Hg. rewrite Hg. destruct x as [os'|]; cbn [option_map]; [|now exists 0]. apply IH. cbn in Hle. lia.
    - rewrite arg_of_fill. destruct (arg_ofH ps args t) as [a|]; cbn [option_map].
      + destruct tl as [|u tl'].
        * apply (Hthen a (fun m a' => Done (fill os ++ a')) (fun a' => HDone (os ++ a'))). intros a'. exists 0. intros. now rewrite fill_app.
        * destruct (tok_eqb u paste_op).
          -- rewrite <- fill_app. apply IH. cbn in *. lia.
          -- apply (Hthen a (fun m a' => subst (ex m) ps (map fill args) (u :: tl') (fill os ++ a')) (fun a' => substH exH ps args (u :: tl') (os ++ a'))).
             intros a'. rewrite <- fill_app. apply IH. lia.
      + change [(t, [])] with (fill [Tk (t, [])]). rewrite <- fill_app. apply IH. lia.
  Qed.

  Lemma expand_plain h l : (forall s, In (Id s) l -> find D s = None) -> forall n r, expand D (length l + n) (sh h l ++ r) = prepend (sh h l) (expand D n r).
  Proof.
    induction l as [|t l IH]; intros Hl n r.
    - cbn. now destruct (expand D n r).
    - cbn [length Nat.add map app expand].
      assert (Hs : prepend [(t, h)] (expand D (length l + n) (sh h l ++ r)) = prepend ((t, h) :: sh h l) (expand D n r)).
      { rewrite IH by (intros s Hs; apply Hl; now right). now destruct (expand D n r). }
      destruct t as [s|s|s]; try exact Hs. destruct (mem s h); [exact Hs|]. rewrite (Hl s) by now left. exact Hs.
  Qed.
  Lemma agrees_prepend u ho g : agrees ho g -> agrees (prependH u ho) (fun m => prepend (fill u) (g m)).
  Proof. destruct ho; cbn; try easy; intros (n & H); exists n; intros m Hm; rewrite H by easy; cbn; [now rewrite fill_app|easy]. Qed.
  Lemma agrees_shift k ho g g' : (forall m, g' (k + m) = g m) -> agrees ho g -> agrees ho g'.
  Proof.
    intros H. destruct ho; cbn; try easy; intros (n & Hn); exists (k + n); intros m Hm; replace m with (k + (m - k)) by lia; rewrite H; apply Hn; lia.
  Qed.
  Lemma expand_fill n : forall l, agrees (expandH n l) (fun m => expand D m (fill l)).
  Proof.
    induction n as [|n IH]; intros l; [easy|]. destruct l as [|[[t h]|i h] tl]; cbn [expandH].
    - exists 1. intros [|m] Hm; [lia|reflexivity].
    - change (fill (Tk (t, h) :: tl)) with ((t, h) :: fill tl).
      pose proof (agrees_prepend [Tk (t, h)] _ _ (IH tl)) as Hp. change (fill [Tk (t, h)]) with [(t, h)] in Hp.
      pose (skip := prependH [Tk (t, h)] (expandH n tl)). fold skip in Hp |- *.
      assert (Hskip : (forall m, expand D (S m) ((t, h) :: fill tl) = prepend [(t, h)] (expand D m (fill tl))) -> agrees skip (fun m => expand D m ((t, h) :: fill tl))).
      { intros E. apply (agrees_shift 1 _ (fun m => prepend [(t, h)] (expand D m (fill tl)))); [exact E|exact Hp]. }
      destruct t as [s|s|s]; [|now apply Hskip|now apply Hskip]. destruct (mem s h) eqn:Hm; [apply Hskip; intros m; cbn [expand]; now rewrite Hm|].
      destruct (find D s) as [mc|] eqn:Hf; [|apply Hskip; intros m; cbn [expand]; now rewrite Hm, Hf].
      destruct tl as [|[[u hu]|j hj] tl']; [apply Hskip; intros m; cbn [expand]; now rewrite Hm, Hf| |easy].
      change (fill (Tk (u, hu) :: tl')) with ((u, hu) :: fill tl') in *.
      destruct (tok_eqb u lparen) eqn:Hu; [|apply Hskip; intros m; cbn [expand]; now rewrite Hm, Hf, Hu].
      clear Hskip Hp skip. pose proof (read_args_fill (mc_params mc) (mc_variadic mc) tl') as Hr.
      destruct (read_argsH (mc_params mc) (mc_variadic mc) tl') as [args h' r| |]; [| |easy].
      + specialize (Hr ltac:(easy)). cbn [lval] in Hr.
        pose proof (subst_fill (expandH n) (fun m => expand D m) (param_names mc) args (mc_body mc) IH []) as Hsub. change (fill []) with (@nil htok) in Hsub.
        destruct (substH (expandH n) (param_names mc) args (mc_body mc) []) as [b| | |]; cbn [andThenH]; [| |easy|easy].
        * destruct Hsub as (n0 & Hsub). apply (agrees_shift 1 _ (fun m => andThen (subst (expand D m) (param_names mc) (map fill args) (mc_body mc) []) (fun b => expand D m (hide (s :: inter h h') b ++ fill r)))).
          { intros m. cbn [Nat.add expand]. now rewrite Hm, Hf, Hu, Hr. }
          apply (agrees_ext _ (fun m => expand D m (fill (hideH (s :: inter h h') b ++ r))) _ n0); [|apply IH]. intros m Hm0. rewrite Hsub by easy. cbn [andThen].
          now rewrite fill_app, fill_hide.
        * destruct Hsub as (n0 & Hsub). exists (S n0). intros [|m] Hm0; [lia|]. cbn [expand]. rewrite Hm, Hf, Hu, Hr. cbv beta in Hsub. now rewrite Hsub by lia.
      + specialize (Hr ltac:(easy)). exists 1. intros [|m] Hm0; [lia|]. cbn [expand]. now rewrite Hm, Hf, Hu, Hr.
    - change (fill (Hole i h :: tl)) with (sh h (f i) ++ fill tl). apply (agrees_shift (length (f i)) _ (fun m => prepend (fill [Hole i h]) (expand D m (fill tl)))).
      { intros m. rewrite expand_plain by apply Hfree. cbn [fill flat_map fill1]. now rewrite app_nil_r. }
      apply agrees_prepend, IH.
  Qed.
End Holes.

(** ** The macros of the header *)
Lemma free_nil : macro_free [].
Proof. intros s []. Qed.
Lemma find_none D s : ~ In s (map fst D) -> find D s = None.
Proof.
  induction D as [|[n m] D IH]; [easy|]. cbn [map fst In find]. intros H. destruct (String.eqb s n) eqn:E; [|apply IH; tauto]. apply String.eqb_eq in E. subst. tauto.
Qed.
Lemma reserved_all : map fst header = reserved.
Proof. vm_compute. reflexivity. Qed.
Lemma free_find l s : macro_free l -> In (Id s) l -> find header s = None.
Proof. intros H Hs. apply find_none. rewrite reserved_all. now apply H. Qed.

Lemma no_comma_balanced l : no_comma l -> balanced l.
Proof. induction 1; [apply bal_nil|now apply bal_tok|now apply bal_paren]. Qed.

Definition may_comma (i : nat) : bool := match i with 1 | 2 | 4 => true | _ => false end.
Definition holes (name : string) (params expr rest more : list tok) (i : nat) : list tok :=
  match i with 0 => [Id name] | 1 => params | 2 => expr | 3 => rest | 4 => more | _ => [] end.
Definition conc (l : list tok) : list sym := map (fun t => Tk (t, [])) l.
Definition hole (i : nat) : list sym := [Hole i []].

Definition filled (f : nat -> list tok) (l : list sym) : list tok := flat_map (fun s => match s with Tk t => [fst t] | Hole i _ => f i end) l.
Lemma plain_fill f l : plain (fill f l) = filled f l.
Proof.
  induction l as [|s l IH]; [easy|]. change (plain (fill1 f s ++ fill f l) = (match s with Tk t => [fst t] | Hole i _ => f i end) ++ filled f l). unfold plain in *. etransitivity; [apply map_app|]. f_equal; [|exact IH]. destruct s as [t|i h]; [easy|]. cbn. rewrite map_map. cbn. apply map_id.
Qed.
Lemma fill_conc f l : fill f (conc l) = fresh l.
Proof. unfold fill, conc, fresh. induction l as [|t l IH]; [easy|]. cbn. now rewrite IH. Qed.
Lemma fill_hole f i : fill f (hole i) = fresh (f i).
Proof. cbn. now rewrite app_nil_r. Qed.
Lemma fresh_app a b : fresh (a ++ b) = fresh a ++ fresh b.
Proof. apply map_app. Qed.

Section Run.
  Context (name : string) (params expr rest more : list tok).
  Context (Hname : ~ In name reserved) (Hp : balanced params) (He : balanced expr) (Hr : no_comma rest) (Hm : balanced more).
  Context (Fp : macro_free params) (Fe : macro_free expr) (Fr : macro_free rest) (Fm : macro_free more).
  Notation f := (holes name params expr rest more).
  Lemma holes_bal i : balanced (f i).
  Proof. destruct i as [|[|[|[|[|i]]]]]; cbn; try easy; [apply bal_tok; [easy|easy|apply bal_nil]|now apply no_comma_balanced|apply bal_nil]. Qed.
  Lemma holes_nc i : may_comma i = false -> no_comma (f i).
  Proof. destruct i as [|[|[|[|[|i]]]]]; cbn; try easy; intros _; [apply nc_tok; [easy|easy|easy|apply nc_nil]|apply nc_nil]. Qed.
  Lemma holes_free i s : In (Id s) (f i) -> find header s = None.
  Proof.
    destruct i as [|[|[|[|[|i]]]]]; cbn [holes]; try (now apply free_find). intros [[= ->]|[]]. apply find_none. now rewrite reserved_all.
  Qed.
  Lemma run_done N input out text result : expandH header may_comma N input = HDone out -> fill f input = fresh text -> filled f out = result -> becomes text result.
  Proof.
    intros Hrun Hin Hout. pose proof (expand_fill header may_comma f holes_bal holes_nc holes_free N input) as H. rewrite Hrun in H. destruct H as (n & H).
    rewrite Hin in H. exists (fill f out). split; [now rewrite plain_fill|]. split; [exists n; now apply H|]. intros k. unfold preprocess.
    destruct (expand_mono header k (Nat.max k n) (fresh text) ltac:(lia)) as [E|E]; [now left|]. right. rewrite E. apply H. lia.
  Qed.
  Lemma run_ill N input text : expandH header may_comma N input = HIll -> fill f input = fresh text -> ill_formed text.
  Proof.
    intros Hrun Hin. pose proof (expand_fill header may_comma f holes_bal holes_nc holes_free N input) as H. rewrite Hrun in H. destruct H as (n & H).
    rewrite Hin in H. split; [exists n; now apply H|]. intros k. unfold preprocess.
    destruct (expand_mono header k (Nat.max k n) (fresh text) ltac:(lia)) as [E|E]; [now left|]. right. rewrite E. apply H. lia.
  Qed.
End Run.

Definition use_holes (macro : string) (tail : list sym) : list sym :=
  conc [Id macro; Pun "("] ++ hole 0 ++ conc [Pun ","; Pun "("] ++ hole 1 ++ conc [Pun ")"; Id "requires"; Pun "("] ++ hole 2 ++ conc [Pun ")"] ++ tail ++ conc [Pun ")"].
Definition use_pseudo_holes (macro : string) (tail : list sym) : list sym :=
  conc [Id macro; Pun "("] ++ hole 0 ++ conc [Pun ","; Id "requires"; Pun "("] ++ hole 2 ++ conc [Pun ")"] ++ tail ++ conc [Pun ")"].
Definition tail_comma : list sym := hole 3 ++ conc [Pun ","] ++ hole 4.

Ltac fill_tac := unfold use_holes, use_pseudo_holes, tail_comma, use, use_pseudo; rewrite ?fill_app, ?fill_conc, ?fill_hole, ?fresh_app; rewrite <- ?app_assoc; reflexivity.
Ltac text_tac := cbn [holes]; rewrite <- ?app_assoc; vm_compute; reflexivity.

Definition out_extern : list sym := Eval vm_compute in match expandH header may_comma 1500 (use_holes "anyany_extern_method" (hole 3)) with HDone l => l | _ => [] end.
Lemma out_extern_eq : expandH header may_comma 1500 (use_holes "anyany_extern_method" (hole 3)) = HDone out_extern.
Proof. vm_compute. reflexivity. Qed.
Lemma extern_method_ok name params expr rest : ~ In name reserved -> macro_free params -> macro_free expr -> macro_free rest ->
  balanced params -> balanced expr -> no_comma rest -> becomes (use "anyany_extern_method" name params expr rest) (extern_method_text name params expr rest).
Proof.
  intros Hn Fp Fe Fr Hp He Hr.
  assert (Hout : filled (holes name params expr rest []) out_extern = extern_method_text name params expr rest) by (unfold extern_method_text, signature, return_type, implementation; text_tac).
  refine (run_done name params expr rest [] Hn Hp He Hr bal_nil Fp Fe Fr free_nil 1500 _ out_extern _ _ out_extern_eq _ Hout). fill_tac.
Qed.
Definition out_method : list sym := Eval vm_compute in match expandH header may_comma 1500 (use_holes "anyany_method" (hole 3)) with HDone l => l | _ => [] end.
Lemma out_method_eq : expandH header may_comma 1500 (use_holes "anyany_method" (hole 3)) = HDone out_method.
Proof. vm_compute. reflexivity. Qed.
Lemma method_ok name params expr rest : ~ In name reserved -> macro_free params -> macro_free expr -> macro_free rest ->
  balanced params -> balanced expr -> no_comma rest -> becomes (use "anyany_method" name params expr rest) (method_text name params expr rest).
Proof.
  intros Hn Fp Fe Fr Hp He Hr.
  assert (Hout : filled (holes name params expr rest []) out_method = method_text name params expr rest) by (unfold method_text, member, signature, return_type, implementation; text_tac).
  refine (run_done name params expr rest [] Hn Hp He Hr bal_nil Fp Fe Fr free_nil 1500 _ out_method _ _ out_method_eq _ Hout). fill_tac.
Qed.
Definition out_pseudo : list sym := Eval vm_compute in match expandH header may_comma 1500 (use_pseudo_holes "anyany_pseudomethod" (hole 3)) with HDone l => l | _ => [] end.
Lemma out_pseudo_eq : expandH header may_comma 1500 (use_pseudo_holes "anyany_pseudomethod" (hole 3)) = HDone out_pseudo.
Proof. vm_compute. reflexivity. Qed.
Lemma pseudomethod_ok name expr rest : ~ In name reserved -> macro_free expr -> macro_free rest ->
  balanced expr -> no_comma rest -> becomes (use_pseudo "anyany_pseudomethod" name expr rest) (pseudomethod_text name expr rest).
Proof.
  intros Hn Fe Fr He Hr.
  assert (Hout : filled (holes name [] expr rest []) out_pseudo = pseudomethod_text name expr rest) by (unfold pseudomethod_text; text_tac).
  refine (run_done name [] expr rest [] Hn bal_nil He Hr bal_nil free_nil Fe Fr free_nil 1500 _ out_pseudo _ _ out_pseudo_eq _ Hout). fill_tac.
Qed.
Lemma comma_ill macro name params expr a b : In macro ["anyany_method"; "anyany_extern_method"]%string -> ~ In name reserved -> macro_free params -> macro_free expr -> macro_free a -> macro_free b ->
  balanced params -> balanced expr -> no_comma a -> balanced b -> ill_formed (use macro name params expr (a ++ Pun "," :: b)).
Proof.
  intros Hmac Hn Fp Fe Fa Fb Hp He Ha Hb.
  assert (Ho : expandH header may_comma 1500 (use_holes macro tail_comma) = HIll) by (destruct Hmac as [<-|[<-|[]]]; vm_compute; reflexivity).
  refine (run_ill name params expr a b Hn Hp He Ha Hb Fp Fe Fa Fb 1500 _ _ Ho _). fill_tac.
Qed.
Lemma comma_ill_pseudo name expr a b : ~ In name reserved -> macro_free expr -> macro_free a -> macro_free b ->
  balanced expr -> no_comma a -> balanced b -> ill_formed (use_pseudo "anyany_pseudomethod" name expr (a ++ Pun "," :: b)).
Proof.
  intros Hn Fe Fa Fb He Ha Hb.
  assert (Ho : expandH header may_comma 1500 (use_pseudo_holes "anyany_pseudomethod" tail_comma) = HIll) by (vm_compute; reflexivity).
  refine (run_ill name [] expr a b Hn bal_nil He Ha Hb free_nil Fe Fa Fb 1500 _ _ Ho _). fill_tac.
Qed.
