(* PropertiesPlace.v: comments keep their place relative to their neighbours.
   Statements only; proofs are in PlaceProofs.v, the vocabulary in SpecPlace.v and
   SpecMembers.v. *)
From Verif Require Import Base Doc DocBuilder SpecDoc Cst Comments SpecComments SpecMembers SpecPlace PlaceProofs
  Formatter Trees Samples.
Local Open Scope string_scope.

(* ------------------------------------------------------------------ C53 *)
(* A comment [c] behind a construct: [p] is the nearest named sibling before it in
   the source, [d] the construct's document.  The gap printed between the last
   text [s] of the construct and the first line [t] of the comment (same line, next
   line, one blank line) is the gap of the source. *)
Theorem C53_comment_behind :
  forall left n right c p D w l d rest r s t ls,
    comment_of left n right = Ok c -> nearest left p -> (n_erow p <= n_srow n)%N ->
    within (Concat (l ++ d :: Concat (post_comment_docs c ++ rest) :: r)) D ->
    fits_gap (gap_before c) s d ->
    normal_lines (c_line c) (c_value c) = t :: ls -> t <> [c_sp] ->
    exists g a i b, source_gap (n_erow p) (n_srow n) g /\
      pretty_print D w = (a ++ s ++ gap_text g i ++ t ++ b)%list.
Proof.
  intros. exists (gap_before c). edestruct post_placed as (a & i & b & E); eauto using comment_starts.
  exists a, i, b. split; [eapply gap_before_read; eassumption|exact E].
Qed.
Print Assumptions C53_comment_behind.

(* The last comment before a construct: [x] is the nearest named sibling behind
   it.  (Nothing follows a line comment on its line.) *)
Theorem C53_comment_before :
  forall left n right c x D w l cs d r ls s t,
    comment_of left n right = Ok c -> nearest right x -> (n_erow n <= n_srow x)%N ->
    (c_line c = true -> n_erow n <> n_srow x) ->
    within (Concat (l ++ Concat (pre_comments_docs true (cs ++ [c])) :: d :: r)) D ->
    normal_lines (c_line c) (c_value c) = (ls ++ [s])%list -> s <> [] -> ends_with_char c_sp s = false ->
    starts_text t d ->
    exists g a i b, source_gap (n_erow n) (n_srow x) g /\
      pretty_print D w = (a ++ s ++ gap_text g i ++ t ++ b)%list.
Proof.
  intros left n right c x D w l cs d r ls s t Hc Hx Hr Hl Hw Hls Hs He Ht. exists (gap_after c).
  assert (Hsp : s <> [c_sp]) by (intros ->; discriminate He).
  destruct (comment_ends c ls s Hls Hsp) as [H1 H2].
  assert (HF : fits_gap (gap_after c) s (comment_doc c)).
  { split; [exact H1|]. intro Hg. split; [|split; assumption]. apply H2.
    destruct (c_line c) eqn:El; [|reflexivity]. exfalso. unfold gap_after in Hg.
    unfold comment_of in Hc. destruct (has_kind "line_comment" n).
    - injection Hc as <-. cbn in Hg. destruct (match find n_named right with Some _ => _ | None => _ end); discriminate.
    - destruct (has_kind "block_comment" n); [|discriminate]. injection Hc as <-. discriminate El. }
  destruct (pre_placed D w l cs c d r s t Hw HF Ht) as (a & i & b & E).
  exists a, i, b. split; [eapply gap_after_read; eassumption|exact E].
Qed.
Print Assumptions C53_comment_before.

(* A comment on the line of a statement, one on the next line, one after two empty
   lines, and one with an empty line before the next statement. *)
Definition placed : node :=
  tree (cls [Row 1; meth [inv []; lcom "// same"; Row 1; lcom "// next"; Row 3; bcom "/* far */"; Row 2; inv [];
                          Row 1; bcom "/* near */"; inv []]]).
Example C53_case :
  format_tree true 200%nat Config_default placed = Ok (U "public class Foo {
  void bar() {
    foo(); // same
    // next

    /* far */

    foo();
    /* near */ foo();
  }
}
").
Proof. vm_compute. reflexivity. Qed.
Example C53_case_parts :
  let n := List.nth 1 (children (tree (br "x" [tok "a" "a"; bcom "/* c */"; Row 2; tok "b" "b"]))) placed in
  let a := List.nth 0 (children (tree (br "x" [tok "a" "a"; bcom "/* c */"; Row 2; tok "b" "b"]))) placed in
  let b := List.nth 2 (children (tree (br "x" [tok "a" "a"; bcom "/* c */"; Row 2; tok "b" "b"]))) placed in
  exists c, comment_of [a] n [b] = Ok c /\ nearest [a] a /\ nearest [b] b /\
    source_gap (n_erow a) (n_srow n) SameLine /\ source_gap (n_erow n) (n_srow b) BlankLine /\
    gap_before c = SameLine /\ gap_after c = BlankLine /\
    fits_gap (gap_before c) (U "x") (txt (U "x")) /\ normal_lines (c_line c) (c_value c) = [U "/* c */"].
Proof.
  cbv zeta. eexists. split; [vm_compute; reflexivity|].
  split; [exists [], []; repeat split; constructor|].
  split; [exists [], []; repeat split; constructor|].
  split; [vm_compute; reflexivity|].
  split; [split; [vm_compute; discriminate|exists 1%N; vm_compute; split; reflexivity]|].
  split; [reflexivity|]. split; [reflexivity|].
  split; [|vm_compute; reflexivity].
  split; [apply Et_text; discriminate|]. intros _. split; [apply Ti_text; discriminate|].
  split; [discriminate|reflexivity].
Qed.
