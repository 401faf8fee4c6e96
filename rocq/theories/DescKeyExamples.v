(** Registries used by the examples. *)
From Coq Require Import ZArith String.
From stdpp Require Import gmap list.
From Verif Require Import TypeListModel AnyModel AnyExamples PolyModel PolySpec PolyExamples DescModel DescSpec DescProofs DescExamples DescKeyModel DescKeySpec DescKeyProofs DescKeyTable.

(** the name of one type at two addresses, of another at a third *)
Definition reg_mem (a : nat) : chars := match a with 1 | 3 => lit "int]" | 2 => lit "char]" | _ => lit "void]" end.
Definition at_ (a : nat) : descriptor := Desc a (reg_mem a).
Definition int_name : chars := cs "int]".
Definition char_name : chars := cs "char]".
Lemma named a s : reg_mem a = s ++ [0%Z] -> ~ In 0%Z s -> names reg_mem (at_ a) s.
Proof. intros H Hn. split; [done|]. exists []. by split. Qed.
Lemma int_1 : names reg_mem (at_ 1) int_name. Proof. apply named; [done|]. cbn. intuition discriminate. Qed.
Lemma char_2 : names reg_mem (at_ 2) char_name. Proof. apply named; [done|]. cbn. intuition discriminate. Qed.
Lemma int_3 : names reg_mem (at_ 3) int_name. Proof. apply named; [done|]. cbn. intuition discriminate. Qed.
(** int := 10 through the first address, char := 20, int := 30 through the other address *)
Definition reg_tree : dtree nat := DNode (DNode DLeaf (at_ 2) 20 DLeaf) (at_ 1) 30 DLeaf.
(** the same rebalanced *)
Definition reg_tree' : dtree nat := DNode DLeaf (at_ 2) 20 (DNode DLeaf (at_ 1) 30 DLeaf).
Definition reg_map : gmap chars nat := <[int_name := 30]> (<[char_name := 20]> (<[int_name := 10]> ∅)).
Lemma reg_history : map_history reg_mem reg_tree' reg_map.
Proof.
  apply (map_rebalances _ reg_tree); [|done].
  eapply (map_puts _ _ _ (at_ 3)); [|apply int_3|]; [eapply (map_puts _ _ _ (at_ 2)); [|apply char_2|]; [eapply (map_puts _ _ _ (at_ 1)); [apply map_new|apply int_1|reflexivity]|reflexivity]|reflexivity].
Qed.
(** the same in two buckets; the code of a name is its length *)
Lemma reg_table_history c : table_history reg_mem length c [[(4, at_ 1, 30)]; [(5, at_ 2, 20)]] reg_map.
Proof.
  destruct c; (eapply (table_puts _ _ _ _ _ (at_ 3)); [|apply int_3|]; [eapply (table_puts _ _ _ _ _ (at_ 2)); [|apply char_2|];
    [eapply (table_puts _ _ _ _ _ (at_ 1)); [apply (table_new _ _ _ 2); lia|apply int_1|reflexivity]|reflexivity]|reflexivity]).
Qed.
(** the literals of two translation units *)
Definition gcc_mem (a : nat) : chars :=
  match decode_nat a with Some p => snd (p : nat * chars) ++ suffix Gcc ++ [0%Z] | None => [0%Z] end.
Lemma gcc_names k x : exists d, descriptor_v Gcc (spell_unit "" k) x = Some d /\ names gcc_mem d (spell (decay x) ++ suffix Gcc).
Proof.
  destruct (spell_units Gcc "" "" k k eq_refl eq_refl) as (W & _). destruct (W (decay x)) as [Hz _].
  destruct (name_of_spec Gcc _ _ (spell_spells Gcc "" k (decay x) eq_refl) Hz) as [Hn Hc]. unfold descriptor_v. rewrite Hn. eexists. split; [reflexivity|].
  split; [|by apply core_cstring]. cbn [d_mem d_addr u_addr spell_unit]. unfold gcc_mem. by rewrite decode_encode_nat.
Qed.
(** the names used by the examples of anys *)
Definition obs_mem (a : nat) : chars := match a with 0 => [1%Z; 0%Z] | S n => [(Z.of_nat n + 2)%Z; 0%Z] end.
Lemma obs_stored : stored obs0 obs_mem. Proof. by intros [n|]. Qed.
(** a handler for type 1 in a registry that is otherwise empty *)
Definition handler_tree : dtree nat := DNode DLeaf (desc0 (Some 1)) 10 DLeaf.
Definition handler_table : list (list (nat * descriptor * nat)) := [[]; [(1, desc0 (Some 1), 10)]].
