(* WordsProofs.v: laying out a document neither joins nor splits words. *)
From Coq Require Import Lia.
From Verif Require Import Base Doc SpecDoc DocProofs FormatProofs SpecTokens TokensProofs SpecWords BitsProofs.
Local Open Scope list_scope.

(* ------------------------------------------------------------ texts that touch *)

(* [firm e ts]: of the texts [ts] no two touch with word characters, nor does the
   first one touch a word in front of it ([e]).  [after e ts]: a word is at the end. *)
Fixpoint firm (e : bool) (ts : list ustr) : bool :=
  match ts with
  | [] => true
  | [] :: r => firm e r
  | w :: r => negb (e && starts_word w) && firm (ends_word w) r
  end.
Fixpoint after (e : bool) (ts : list ustr) : bool :=
  match ts with
  | [] => e
  | [] :: r => after e r
  | w :: r => after (ends_word w) r
  end.
Lemma firm_app e a b : firm e (a ++ b) = firm e a && firm (after e a) b.
Proof.
  revert e. induction a as [|w a IH]; intro e; [reflexivity|]. cbn [app firm after]. destruct w as [|c w]; [apply IH|].
  rewrite IH, Bool.andb_assoc. reflexivity.
Qed.
Lemma after_app e a b : after e (a ++ b) = after (after e a) b.
Proof. revert e. induction a as [|w a IH]; intro e; [reflexivity|]. cbn [app after]. destruct w; apply IH. Qed.

(* The texts of a document, with a space for every line break (of a group: of its
   first alternative). *)
Fixpoint tight (d : doc) : list ustr :=
  match d with
  | Newline | NewlineNoIndent | Softline => [[c_sp]]
  | ForceBreak | Maybeline => []
  | Text s _ => [s]
  | Flat x | Indent _ x | Dedent _ x => tight x
  | Concat l => flat_map tight l
  | Choice x _ => tight x
  end.
Definition atom_texts (a : atom) : list ustr :=
  match a with
  | AText s => [s]
  | ABreak _ | ALineFeed | ASpace => [[c_sp]]
  | AGroup => []
  end.

(* More blanks between the texts. *)
Inductive wider : list ustr -> list ustr -> Prop :=
| Wd_nil : wider [] []
| Wd_cons w a b : wider a b -> wider (w :: a) (w :: b)
| Wd_gap a b : wider a b -> wider a ([c_sp] :: b).
Lemma wider_refl a : wider a a.
Proof. induction a; constructor; auto. Qed.
Lemma wider_app a b c d : wider a b -> wider c d -> wider (a ++ c) (b ++ d).
Proof. induction 1; intro; cbn [app]; [assumption|constructor; auto|apply Wd_gap; auto]. Qed.
Definition leb (a b : bool) : Prop := a = true -> b = true.
Lemma leb_false b : leb false b.
Proof. discriminate. Qed.
Lemma leb_refl b : leb b b.
Proof. intro; assumption. Qed.
Lemma firm_mono e e' l : leb e' e -> firm e l = true -> firm e' l = true.
Proof.
  intros L. induction l as [|w l IH]; [auto|]. cbn [firm]. destruct w as [|c w]; [exact IH|].
  rewrite !Bool.andb_true_iff, !Bool.negb_true_iff. intros [H1 H2]. split; [|exact H2].
  destruct e'; [|reflexivity]. rewrite (L eq_refl) in H1. exact H1.
Qed.
Lemma after_mono e e' l : leb e' e -> leb (after e' l) (after e l).
Proof. intro L. induction l as [|w l IH]; [exact L|]. cbn [after]. destruct w; [exact IH|apply leb_refl]. Qed.
Lemma firm_wider a b : wider a b -> forall e e', leb e' e -> firm e a = true -> firm e' b = true.
Proof.
  induction 1 as [|w a b W IH|a b W IH]; intros e e' L H; [reflexivity| |].
  - cbn [firm] in *. destruct w as [|c w]; [eapply IH; eauto|].
    rewrite !Bool.andb_true_iff, !Bool.negb_true_iff in *. destruct H as [H1 H2]. split; [|eapply IH; [apply leb_refl|exact H2]].
    destruct e'; [|reflexivity]. rewrite (L eq_refl) in H1. exact H1.
  - cbn [firm]. change (starts_word [c_sp]) with false. rewrite Bool.andb_false_r. cbn [negb andb].
    apply (IH e); [|exact H]. change (ends_word [c_sp]) with false. apply leb_false.
Qed.
Lemma wider_bits a b : wider a b -> flat_map bits a = flat_map bits b.
Proof. induction 1 as [|w a b W IH|a b W IH]; cbn [flat_map]; [reflexivity|rewrite IH; reflexivity|rewrite IH; reflexivity]. Qed.

Lemma layout_tight d : forall i f a, grouped d -> layout i f d a -> wider (tight d) (flat_map atom_texts a).
Proof.
  induction d as [| | |s w| | |d IH|k d IH|k d IH|l IH|x y IHx IHy] using doc_nested_ind; intros i f a G H; inversion H; subst; cbn [tight].
  all: try (cbn; apply wider_refl); try (cbn; apply Wd_gap, Wd_nil).
  - eapply IH; eauto.
  - eapply IH; eauto.
  - eapply IH; eauto.
  - match goal with H : layouts _ _ _ _ |- _ => rename H into HL end. apply (proj1 (TermProofs2.grouped_concat l)) in G.
    revert a H HL. clear -IH G. induction l as [|x l IHl]; intros a _ HL; inversion HL; subst; [constructor|].
    inversion IH; subst. inversion G; subst. cbn [flat_map]. rewrite flat_map_app. apply wider_app; [eauto|].
    eapply IHl; eauto. constructor. eassumption.
  - cbn [flat_map atom_texts app]. destruct G as [-> G]. eapply IHx; [exact G|eassumption].
  - cbn [flat_map atom_texts app]. destruct G as [-> G]. eapply IHy; [exact G|eassumption].
Qed.

(* ------------------------------------------------------------ printing *)

Definition edge (s : list N * option N) : bool := match snd s with None => ends_word (fst s) | Some _ => false end.
Lemma ends_break o i : ends_word (o ++ c_nl :: repeat c_sp i) = false.
Proof.
  rewrite ends_word_app. unfold ends_word. cbn [rev].
  assert (E : rev (repeat c_sp i) = repeat c_sp i).
  { induction i as [|i IH]; [reflexivity|]. cbn [repeat rev]. rewrite IH. clear. induction i as [|i IH]; [reflexivity|].
    cbn [repeat app]. rewrite IH. reflexivity. }
  rewrite E. destruct i; reflexivity.
Qed.
Lemma break_bits o i : bits (o ++ c_nl :: repeat c_sp i) = bits o.
Proof.
  rewrite bits_app; [|apply Bool.andb_false_r]. rewrite (bits_blank (c_nl :: _)); [apply app_nil_r|].
  cbn. induction i as [|i IH]; [reflexivity|exact IH].
Qed.
Lemma settle_bits s : bits (settle s) = bits (fst s) /\ ends_word (settle s) = edge s.
Proof.
  destruct s as [o [i|]]; cbn [settle fst]; [|split; reflexivity]. split; [apply break_bits|apply ends_break].
Qed.
Lemma put_bits o t : ends_word o && starts_word t = false ->
  bits (put o t) = bits o ++ bits t /\ (t <> [] -> ends_word (put o t) = ends_word t).
Proof.
  intro H. unfold put. destruct (ustr_eqb t [c_sp] && ends_with_char c_sp o) eqn:E.
  - apply Bool.andb_true_iff in E as [E1 E2]. apply ustr_eqb_eq in E1 as ->. split; [symmetry; apply app_nil_r|].
    intros _. unfold ends_with_char in E2. unfold ends_word. destruct (rev o) as [|c r]; [discriminate|].
    apply N.eqb_eq in E2 as ->. reflexivity.
  - split; [apply bits_app, H|]. destruct t as [|c t]; [contradiction|]. intros _. apply ends_word_app.
Qed.
Lemma render_bits l : forall s, firm (edge s) (flat_map atom_texts l) = true ->
  bits (settle (render_from s l)) = bits (fst s) ++ flat_map bits (flat_map atom_texts l).
Proof.
  induction l as [|a l IH]; intros s H.
  - cbn. rewrite app_nil_r. apply settle_bits.
  - cbn [flat_map render_from fold_left] in *. rewrite flat_map_app. change (fold_left render1 l ?x) with (render_from x l).
    rewrite firm_app in H. apply Bool.andb_true_iff in H as [H1 H2].
    destruct (settle_bits s) as [B1 B2].
    destruct a as [t|i| | |]; cbn [render1 atom_texts flat_map] in *.
    + assert (Ht : ends_word (settle s) && starts_word t = false).
      { rewrite B2. destruct t as [|c t]; [apply Bool.andb_false_r|]. cbn [firm] in H1.
        rewrite Bool.andb_true_r in H1. apply Bool.negb_true_iff in H1. exact H1. }
      destruct (put_bits (settle s) t Ht) as [P1 P2]. rewrite IH; cbn [fst].
      * rewrite P1, B1, app_nil_r, app_assoc. reflexivity.
      * unfold edge. cbn [snd fst]. destruct t as [|c t].
        -- cbn [after] in H2. assert (E : put (settle s) [] = settle s) by (unfold put; cbn; apply app_nil_r). rewrite E, B2. exact H2.
        -- rewrite P2 by discriminate. exact H2.
    + rewrite IH; [reflexivity|]. exact H2.
    + rewrite IH; cbn [fst]; [|unfold edge; cbn [snd fst]; rewrite (ends_word_app _ c_nl []); exact H2].
      change [c_nl] with (c_nl :: repeat c_sp 0). rewrite break_bits. reflexivity.
    + rewrite IH; cbn [fst snd].
      * rewrite bits_app by apply Bool.andb_false_r. cbn. rewrite app_nil_r. reflexivity.
      * eapply firm_mono; [|exact H2]. unfold edge. cbn [snd fst]. destruct (snd s); [apply leb_false|].
        rewrite (ends_word_app _ c_sp []). apply leb_false.
    + rewrite IH; cbn [fst snd]; [rewrite B1; reflexivity|]. unfold edge. cbn [snd fst]. rewrite B2. exact H2.
Qed.
Theorem pretty_print_bits d w : grouped d -> firm false (tight d) = true -> bits (pretty_print d w) = flat_map bits (tight d).
Proof.
  intros G H. destruct (pretty_print_layout d w) as (a & Ha & ->).
  pose proof (layout_tight d _ _ a G Ha) as W. unfold render. rewrite render_bits; cbn [fst].
  - symmetry. apply (wider_bits _ _ W).
  - eapply firm_wider; [exact W|apply leb_refl|exact H].
Qed.
