(* PropertiesLayout.v: the layout of the source does not matter. *)
From Verif Require Import Base Doc DocBuilder Cst Comments Term New Formatter SpecTree SpecLayout
  LayoutFormat Samples SamplesTokens SamplesLayout PropertiesTokens.
Local Open Scope string_scope.
Local Open Scope list_scope.

(* C56.  Trees of the same code are formatted the same, whatever their rows, bytes and
   node numbers and the case of their keywords: [alike] of SpecLayout.v says which texts
   must agree and which distances of comments and which blank lines. *)
Theorem C56_layout_does_not_matter :
  forall (checked : bool) (stack : nat) (cfg : config) (root root' : node),
    alike None root root' -> distinct_ids root -> distinct_ids root' ->
    format_tree checked stack cfg root' = format_tree checked stack cfg root.
Proof. exact alike_format. Qed.
Print Assumptions C56_layout_does_not_matter.

Theorem C56_sources :
  forall (ts : ustr -> node) (checked : bool) (stack : nat) (cfg : config) (src src' : ustr),
    alike None (ts src) (ts src') -> distinct_ids (ts src) -> distinct_ids (ts src') ->
    n_error (ts src) = false -> n_error (ts src') = false ->
    format_source ts checked stack cfg src' = format_source ts checked stack cfg src.
Proof.
  intros ts checked stack cfg src src' A D D' E E'. unfold format_source, parse. rewrite E, E'. cbn.
  rewrite (alike_format checked stack cfg _ _ A D D'). reflexivity.
Qed.
Print Assumptions C56_sources.

Example C56_sample : alike None sample_comments sample_relaid /\ distinct_ids sample_comments /\ distinct_ids sample_relaid.
Proof.
  split; [apply alikeb_ok; vm_compute; reflexivity|].
  split; apply distinct_ids_sound; vm_compute; reflexivity.
Qed.
Example C56_sample_rows : (n_erow sample_comments, n_erow sample_relaid) = (17, 36)%N.
Proof. vm_compute. reflexivity. Qed.
Example C56_sample_printed : printed sample_relaid = printed sample_comments /\ List.length (printed sample_relaid) = 22.
Proof. split; vm_compute; reflexivity. Qed.

(* The rows do matter on the first row of the file: a line break between two classes
   there removes the blank line between them, or keeps afmt from panicking if
   arithmetic is checked. *)
Theorem C56_first_row_refuted :
  exists root root',
    alike_by plain_gap None root root' /\ distinct_ids root /\ distinct_ids root' /\
    format_tree false 100 narrow root <> format_tree false 100 narrow root'.
Proof.
  exists (two_classes 0), (two_classes 1). split; [apply alikeb_ok; vm_compute; reflexivity|].
  split; [apply distinct_ids_sound; vm_compute; reflexivity|].
  split; [apply distinct_ids_sound; vm_compute; reflexivity|]. vm_compute. discriminate.
Qed.
Print Assumptions C56_first_row_refuted.
Example C56_first_row_printed :
  map (fun k => match format_tree false 100 narrow (two_classes k) with Ok out => map show (split_on c_nl out) | _ => [] end) [0; 1; 2; 7]%N
  = [["class A {"; "}"; ""; "class B {"; "}"; ""]; ["class A {"; "}"; "class B {"; "}"; ""];
     ["class A {"; "}"; ""; "class B {"; "}"; ""]; ["class A {"; "}"; ""; "class B {"; "}"; ""]].
Proof. vm_compute. reflexivity. Qed.
