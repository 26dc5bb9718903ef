(* SamplesReread.v: trees used by the examples of PropertiesReread.v, and tests that
   decide whether a tree is found again in a text. *)
From Verif Require Import Base Doc DocBuilder Cst Comments Term New Formatter SpecTree SpecLayout SpecWords SpecTokens SpecReread
  Trees Samples SamplesTokens SamplesLayout PropertiesTokens.
Local Open Scope string_scope.
Local Open Scope list_scope.

(* The tree of a formatted text: the tree of the source with the rows that its nodes have
   in the text [out].  [k] counts the visible characters before the node. *)
Section Settled.
  Variable out : ustr.
  Fixpoint settled (k : nat) (n : node) : node :=
    match n with
    | Node i cs =>
        Node {| i_id := i_id i; i_kind := i_kind i; i_named := i_named i; i_extra := i_extra i; i_error := i_error i;
                i_field := i_field i; i_srow := row_of out k; i_erow := row_of out (k + pred (width (tips n)));
                i_sbyte := N.of_nat k; i_ebyte := N.of_nat (k + width (tips n)); i_text := i_text i |}
          ((fix go (k : nat) (cs : list node) : list node :=
              match cs with [] => [] | c :: r => settled k c :: go (k + width (tips c))%nat r end) k cs)
    end.
End Settled.

Section Standsb.
  Variable out : ustr.
  Definition rowsb (k : nat) (n : node) : bool :=
    match width (tips n) with
    | O => true
    | S w => (n_srow n =? row_of out k)%N && (n_erow n =? row_of out (k + w))%N
    end.
  Fixpoint standsb (k : nat) (n : node) : bool :=
    rowsb k n &&
    match n with
    | Node _ cs => (fix go (k : nat) (cs : list node) : bool :=
                      match cs with [] => true | c :: r => standsb k c && go (k + width (tips c))%nat r end) k cs
    end.
  Fixpoint standingb (k : nat) (cs : list node) : bool :=
    match cs with [] => true | c :: r => standsb k c && standingb (k + width (tips c))%nat r end.
  Lemma rowsb_ok k n : rowsb k n = true ->
    forall w, width (tips n) = S w -> n_srow n = row_of out k /\ n_erow n = row_of out (k + w).
  Proof.
    unfold rowsb. intros H w E. rewrite E in H. apply andb_prop in H as [H1 H2]. apply N.eqb_eq in H1, H2. auto.
  Qed.
  Lemma standsb_ok n : forall k, standsb k n = true -> stands out k n.
  Proof.
    induction n as [i cs IH] using node_nested_ind. intros k H. cbn [standsb] in H. apply andb_prop in H as [H1 H2].
    split; [apply rowsb_ok; exact H1|]. clear H1. revert k H2.
    induction IH as [|c cs Hc Hs IHs]; intros k H; [exact I|]. apply andb_prop in H as [H1 H2]. split; [apply Hc; exact H1|apply IHs; exact H2].
  Qed.
  Lemma standingb_ok cs : forall k, standingb k cs = true -> standing out k cs.
  Proof.
    induction cs as [|c cs IH]; intros k H; [exact I|]. cbn [standingb] in H. apply andb_prop in H as [H1 H2].
    split; [apply standsb_ok; exact H1|apply IH; exact H2].
  Qed.
End Standsb.
Fixpoint wordsb (a b : list node) : bool :=
  match a, b with
  | [], [] => true
  | x :: a, y :: b => ueqb (folded (n_text x)) (folded (n_text y)) && wordsb a b
  | _, _ => false
  end.
Definition found_againb (root : node) (out : ustr) (root' : node) : bool :=
  alikeb (fun _ _ _ => (0, 0)%nat) None root root' && wordsb (tips root) (tips root') && standingb out 0 (children root').
Lemma found_againb_ok root out root' : found_againb root out root' = true -> found_again root out root'.
Proof.
  intro H. apply andb_prop in H as [H H3]. apply andb_prop in H as [H1 H2]. split.
  - apply alikeb_ok. exact H1.
  - revert H2. unfold same_words. generalize (tips root) (tips root'). induction l as [|x a IH]; intros [|y b] H2; try discriminate; constructor;
      apply andb_prop in H2 as [H2 H4]; [apply ueqb_ok; exact H2|apply IH; exact H4].
  - apply standingb_ok. exact H3.
Qed.
Definition visible_endsb (s : ustr) : bool :=
  match s with c :: m => negb (is_ws c) && negb (is_ws (last s c)) | [] => false end.
Definition trimmedb (root : node) : bool := forallb (fun n => visible_endsb (n_text n)) (flat_map all_nodes (children root)).
Lemma trimmedb_ok root : trimmedb root = true -> trimmed_nodes root.
Proof.
  intros H n Hn. unfold trimmedb in H. rewrite forallb_forall in H. specialize (H n Hn). unfold visible_endsb in H.
  destruct (n_text n) as [|c m]; [discriminate|]. apply andb_prop in H as [H1 H2]. apply negb_true_iff in H1, H2.
  exists c, m. auto.
Qed.
Definition narrow_out (root : node) : ustr := match format_tree false 100 narrow root with Ok s => s | _ => [] end.
Definition again (root : node) : node := settled (narrow_out root) 0 root.
(* foo(aaaaaaaaaa, /* x */ bbbbbbbbbb); *)
Definition sample_arguments : node := tree (cls [meth [inv [id_ "aaaaaaaaaa"; an ","; bcom "/* x */"; id_ "bbbbbbbbbb"]]]).
