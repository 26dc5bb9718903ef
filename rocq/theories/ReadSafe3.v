(* ReadSafe3.v: the files of the supported language are formatted. *)
From Coq Require Import Lia Permutation.
From Verif Require Import Base Doc DocBuilder Cst Comments Term New Formatter SpecTree SpecComments SpecRead SpecTokens SpecSupported
  CollectProofs CollectProofs2 ReadProofs3 TokensProofs TokensProofs5 ReadSafe ReadSafe2.
Local Open Scope string_scope.
Local Open Scope list_scope.

Definition readable (checked : bool) (root : node) : Prop :=
  file_tree root /\ supported root /\ grammatical root /\ (checked = true -> later_rows root).

Lemma format_supported checked stack cfg root :
  readable checked root -> 6 * height root < stack -> cfg_indent_size cfg <> 0%N ->
  exists cm t d marks, collect_comments root = Ok cm /\
    new cm checked stack Root (root_loc root) = Ok t /\
    run cm {| indent_size := cfg_indent_size cfg |} t = Ok (d, marks) /\
    format_tree checked stack cfg root =
      (if is_nil (missing_comments cm marks) then Ok (pretty_print d (max_width cfg))
       else Panic "## There are erased comment node(s)").
Proof.
  intros (FT & SU & G & LR) HS HI. destruct (format_tree_outcome checked stack cfg root G HS HI) as (cm & HC & [(u & d & marks & H)|(y & H & N & _)]).
  - exists cm, u, d, marks. tauto.
  - exfalso. apply N. exact (new_fine root cm checked FT SU LR stack Root (root_loc root) (root_good root FT) y H).
Qed.

Lemma nothing_missing root cm marks : grammatical root -> source_tree root -> collect_comments root = Ok cm ->
  missing_comments cm marks = [].
Proof.
  intros G ST HC. unfold missing_comments.
  pose proof (collected_all root cm (gr_root root G) HC) as P.
  rewrite (no_attachments root (st_no_comments root ST)) in P. apply Permutation_sym, Permutation_nil in P. rewrite P. reflexivity.
Qed.
