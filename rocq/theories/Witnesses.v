(* Witnesses.v: concrete runs behind the refuted claims. *)
From Verif Require Import Base Doc DocBuilder SpecDoc DocProofs Cst Comments SpecTree Term New Formatter Trees Samples.
Local Open Scope string_scope.

(* A decided fact about a computed result. *)
Definition ok_with {A} (r : res A) (p : A -> bool) : bool :=
  match r with Ok x => p x | _ => false end.
Lemma ok_with_sound {A} (r : res A) (p : A -> bool) :
  ok_with r p = true -> exists x, r = Ok x /\ p x = true.
Proof. destruct r; simpl; intro H; try discriminate. eauto. Qed.

(* [s] occurs in [out] at position [n]. *)
Definition at_pos (n : nat) (s out : ustr) : bool :=
  ustr_eqb (firstn (List.length s) (skipn n out)) s.
Fixpoint positions_from (n : nat) (s out : ustr) : list nat :=
  ((if ustr_eqb (firstn (List.length s) out) s then [n] else [])
   ++ match out with [] => [] | _ :: r => positions_from (S n) s r end)%list.
Definition positions (s out : ustr) : list nat := positions_from 0 s out.
Lemma at_pos_split n s out : at_pos n s out = true -> exists a b, out = (a ++ s ++ b)%list /\ a = firstn n out.
Proof.
  unfold at_pos. intro H. apply ustr_eqb_eq in H. exists (firstn n out), (skipn (List.length s) (skipn n out)).
  split; [|reflexivity]. rewrite <- H at 1. rewrite !firstn_skipn. reflexivity.
Qed.
Lemma at_pos_twice n k s out :
  at_pos n s out && at_pos k s (skipn (List.length s) (skipn n out)) = true ->
  exists a b d, out = (a ++ s ++ b ++ s ++ d)%list.
Proof.
  intro H. apply andb_prop in H as [H1 H2]. unfold at_pos in *. apply ustr_eqb_eq in H1, H2.
  set (r := skipn (List.length s) (skipn n out)) in *.
  exists (firstn n out), (firstn k r), (skipn (List.length s) (skipn k r)).
  rewrite <- H2 at 2. rewrite !firstn_skipn. unfold r. rewrite <- H1 at 1. rewrite !firstn_skipn. reflexivity.
Qed.

Lemma comment_printed_twice :
  exists root c out a b d,
    distinct_ids root /\ leaf_tokens root /\ code root = true /\
    filter n_extra (all_nodes root) = [c] /\
    format_tree true 100 Config_default root = Ok out /\
    out = (a ++ n_text c ++ b ++ n_text c ++ d)%list.
Proof.
  assert (Hc : exists c, filter n_extra (all_nodes sample_with) = [c] /\ n_text c = U "/*c*/")
    by (eexists; split; vm_compute; reflexivity).
  destruct Hc as (c & Hc & Ht).
  destruct (ok_with_sound (format_tree true 100 Config_default sample_with)
              (fun out => at_pos 80 (U "/*c*/") out && at_pos 1 (U "/*c*/") (skipn 5 (skipn 80 out)))%bool)
    as (out & Ho & HP); [vm_compute; reflexivity|].
  apply at_pos_twice in HP as (a & b & d & HP).
  exists sample_with, c, out, a, b, d. rewrite Ht.
  split; [apply distinct_ids_sound; vm_compute; reflexivity|].
  split; [apply leaf_tokens_sound; vm_compute; reflexivity|].
  split; [reflexivity|]. split; [exact Hc|]. split; [exact Ho|exact HP].
Qed.

Lemma trailing_space :
  exists root out a b,
    format_tree true 100 (Config_new 20) root = Ok out /\ out = (a ++ [c_sp; c_nl] ++ b)%list.
Proof.
  destruct (ok_with_sound (format_tree true 100 (Config_new 20) sample_for) (at_pos 85 [c_sp; c_nl]))
    as (out & Ho & HP); [vm_compute; reflexivity|].
  apply at_pos_split in HP as (a & b & HP & _). exists sample_for, out, a, b. auto.
Qed.
