(* SpecDoc.v: what a layout of a document is, independently of the printing
   machine of Doc.v.  Nothing here is taken from the Rust code except the
   document type itself. *)
From Verif Require Import Base Doc.

(* The visible events of a layout. *)
Inductive atom : Type :=
| AText (s : ustr)      (* print this text *)
| ABreak (i : N)        (* start a new line indented by i, when something follows *)
| ALineFeed             (* a bare line feed *)
| ASpace                (* a soft break printed as one space *)
| AGroup.               (* a group starts here *)

(* [layout i f d a]: the document [d], at indentation [i], all on one line when
   [f], may be laid out as the events [a].  A group (Choice) may be resolved
   either way unless it is already forced flat. *)
Inductive layout : N -> bool -> doc -> list atom -> Prop :=
| L_Newline i f : layout i f Newline [ABreak i]
| L_NoIndent i f : layout i f NewlineNoIndent [ALineFeed]
| L_Force i f : layout i f ForceBreak []
| L_Text i f s w : layout i f (Text s w) [AText s]
| L_SoftFlat i : layout i true Softline [ASpace]
| L_Soft i : layout i false Softline [ABreak i]
| L_MaybeFlat i : layout i true Maybeline []
| L_Maybe i : layout i false Maybeline [ABreak i]
| L_Flat i f d a : layout i true d a -> layout i f (Flat d) a
| L_Indent i f k d a : layout (i + k) f d a -> layout i f (Indent k d) a
| L_Dedent i f k d a : layout (i - k) f d a -> layout i f (Dedent k d) a
| L_Concat i f l a : layouts i f l a -> layout i f (Concat l) a
| L_ChoiceL i f x y a : layout i f x a -> layout i f (Choice x y) (AGroup :: a)
| L_ChoiceR i x y a : layout i false y a -> layout i false (Choice x y) (AGroup :: a)
with layouts : N -> bool -> list doc -> list atom -> Prop :=
| Ls_nil i f : layouts i f [] []
| Ls_cons i f d l a b : layout i f d a -> layouts i f l b -> layouts i f (d :: l) (a ++ b).

(* Rendering events to text: a break is held back until something is printed
   or a group starts; a later break replaces an earlier one; a bare line feed
   discards a held break; a lone space is not printed after a space. *)
Notation rstate := (list N * option N)%type (only parsing).

Definition settle (s : rstate) : ustr :=
  match s with
  | (out, Some i) => out ++ c_nl :: repeat c_sp (N.to_nat i)
  | (out, None) => out
  end.

Definition put (out t : ustr) : ustr :=
  if ustr_eqb t [c_sp] && ends_with_char c_sp out then out else out ++ t.

Definition render1 (s : rstate) (a : atom) : rstate :=
  match a with
  | AText t => (put (settle s) t, None)
  | ABreak i => (fst s, Some i)
  | ALineFeed => (fst s ++ [c_nl], None)
  | ASpace => (fst s ++ [c_sp], snd s)
  | AGroup => (settle s, None)
  end.

Definition render_from (s : rstate) (l : list atom) : rstate := fold_left render1 l s.
Definition render (l : list atom) : ustr := settle (render_from ([], None) l).

(* Removing spaces and line feeds. *)
Definition is_layout_char (c : uchar) : bool := (c =? c_sp)%N || (c =? c_nl)%N.
Definition squeeze (s : ustr) : ustr := filter (fun c => negb (is_layout_char c)) s.

(* The non-blank characters a document carries (of a group: of its first alternative). *)
Fixpoint content (d : doc) : ustr :=
  match d with
  | Text s _ => squeeze s
  | Flat x | Indent _ x | Dedent _ x => content x
  | Concat l => flat_map content l
  | Choice x _ => content x
  | _ => []
  end.

(* Every group offers twice the same document, once forced flat: what
   DocBuilder::group builds. *)
Fixpoint grouped (d : doc) : Prop :=
  match d with
  | Flat x | Indent _ x | Dedent _ x => grouped x
  | Concat l => (fix go (l : list doc) : Prop :=
                   match l with [] => True | x :: t => grouped x /\ go t end) l
  | Choice x y => x = Flat y /\ grouped y
  | _ => True
  end.

(* [within e d]: [e] is a part of [d] in every layout of [d]. *)
Inductive within (e : doc) : doc -> Prop :=
| W_here : within e e
| W_flat d : within e d -> within e (Flat d)
| W_indent i d : within e d -> within e (Indent i d)
| W_dedent i d : within e d -> within e (Dedent i d)
| W_concat l d : In d l -> within e d -> within e (Concat l)
| W_choice x y : within e x -> within e y -> within e (Choice x y).

(* Texts without line feeds whose recorded width is their byte length. *)
Fixpoint exact_widths (d : doc) : Prop :=
  match d with
  | Text s w => w = ulen s /\ ~ In c_nl s
  | Flat x | Indent _ x | Dedent _ x => exact_widths x
  | Concat l => (fix go (l : list doc) : Prop :=
                   match l with [] => True | x :: t => exact_widths x /\ go t end) l
  | Choice x y => exact_widths x /\ exact_widths y
  | _ => True
  end.

(* The part of a text before its first line feed / after its last one. *)
Fixpoint first_line (s : ustr) : ustr :=
  match s with
  | [] => []
  | c :: t => if (c =? c_nl)%N then [] else c :: first_line t
  end.
Definition last_line (s : ustr) : ustr := rev (first_line (rev s)).

(* A text without its trailing spaces (ASCII space only). *)
Fixpoint drop_spaces (s : ustr) : ustr :=
  match s with
  | [] => []
  | c :: t => if (c =? c_sp)%N then drop_spaces t else s
  end.
Definition strip_trailing_spaces (s : ustr) : ustr := rev (drop_spaces (rev s)).

(* Scheme for the nested document type. *)
Section DocInd.
  Variable P : doc -> Prop.
  Hypothesis HNewline : P Newline.
  Hypothesis HNoIndent : P NewlineNoIndent.
  Hypothesis HForce : P ForceBreak.
  Hypothesis HText : forall s w, P (Text s w).
  Hypothesis HSoft : P Softline.
  Hypothesis HMaybe : P Maybeline.
  Hypothesis HFlat : forall d, P d -> P (Flat d).
  Hypothesis HIndent : forall i d, P d -> P (Indent i d).
  Hypothesis HDedent : forall i d, P d -> P (Dedent i d).
  Hypothesis HConcat : forall l, Forall P l -> P (Concat l).
  Hypothesis HChoice : forall x y, P x -> P y -> P (Choice x y).
  Fixpoint doc_nested_ind (d : doc) : P d :=
    match d with
    | Newline => HNewline
    | NewlineNoIndent => HNoIndent
    | ForceBreak => HForce
    | Text s w => HText s w
    | Softline => HSoft
    | Maybeline => HMaybe
    | Flat x => HFlat x (doc_nested_ind x)
    | Indent i x => HIndent i x (doc_nested_ind x)
    | Dedent i x => HDedent i x (doc_nested_ind x)
    | Concat l => HConcat l ((fix go (l : list doc) : Forall P l :=
                                match l with
                                | [] => Forall_nil P
                                | x :: t => Forall_cons x (doc_nested_ind x) (go t)
                                end) l)
    | Choice x y => HChoice x y (doc_nested_ind x) (doc_nested_ind y)
    end.
End DocInd.

(* ---- what comes next on the current line (for the width decisions) ---- *)

(* A glance at a document: widths of what is printed, the first place where the
   line may end ([PStop]), and forced breaks.  Groups that are not forced flat
   are assumed broken. *)
Inductive piece : Type := PWidth (n : N) | PStop | PForce.

Fixpoint glance (f : bool) (d : doc) : list piece :=
  match d with
  | Newline | NewlineNoIndent => [PStop]
  | ForceBreak => [PForce]
  | Text _ w => [PWidth w]
  | Softline => if f then [PWidth 1] else [PStop]
  | Maybeline => if f then [] else [PStop]
  | Flat x => glance true x
  | Indent _ x | Dedent _ x => glance f x
  | Concat l => flat_map (glance f) l
  | Choice x y => if f then glance true x else glance false y
  end.

(* Width needed before the line may end. *)
Fixpoint need (l : list piece) : N :=
  match l with
  | [] => 0
  | PWidth n :: t => n + need t
  | PStop :: _ => 0
  | PForce :: t => need t
  end.

(* Is there a forced break before the line may end? *)
Fixpoint forced (l : list piece) : bool :=
  match l with
  | [] => false
  | PWidth _ :: t => forced t
  | PStop :: _ => false
  | PForce :: _ => true
  end.

Definition glances (l : list chunk) : list piece :=
  flat_map (fun c => glance (ch_flat c) (ch_doc c)) l.

(* ---- indentation as nesting depth ---- *)

(* All indents and dedents of the document have the same amount. *)
Fixpoint uniform (sz : N) (d : doc) : Prop :=
  match d with
  | Flat x => uniform sz x
  | Indent i x | Dedent i x => i = sz /\ uniform sz x
  | Concat l => (fix go (l : list doc) : Prop :=
                   match l with [] => True | x :: t => uniform sz x /\ go t end) l
  | Choice x y => uniform sz x /\ uniform sz y
  | _ => True
  end.

(* [dlayout sz n f d a]: as [layout], but counting nesting depth [n]; a break at
   depth n is indented by n times sz. *)
Inductive dlayout (sz : N) : nat -> bool -> doc -> list atom -> Prop :=
| D_Newline n f : dlayout sz n f Newline [ABreak (N.of_nat n * sz)]
| D_NoIndent n f : dlayout sz n f NewlineNoIndent [ALineFeed]
| D_Force n f : dlayout sz n f ForceBreak []
| D_Text n f s w : dlayout sz n f (Text s w) [AText s]
| D_SoftFlat n : dlayout sz n true Softline [ASpace]
| D_Soft n : dlayout sz n false Softline [ABreak (N.of_nat n * sz)]
| D_MaybeFlat n : dlayout sz n true Maybeline []
| D_Maybe n : dlayout sz n false Maybeline [ABreak (N.of_nat n * sz)]
| D_Flat n f d a : dlayout sz n true d a -> dlayout sz n f (Flat d) a
| D_Indent n f k d a : dlayout sz (S n) f d a -> dlayout sz n f (Indent k d) a
| D_Dedent n f k d a : dlayout sz (pred n) f d a -> dlayout sz n f (Dedent k d) a
| D_Concat n f l a : dlayouts sz n f l a -> dlayout sz n f (Concat l) a
| D_ChoiceL n f x y a : dlayout sz n f x a -> dlayout sz n f (Choice x y) (AGroup :: a)
| D_ChoiceR n x y a : dlayout sz n false y a -> dlayout sz n false (Choice x y) (AGroup :: a)
with dlayouts (sz : N) : nat -> bool -> list doc -> list atom -> Prop :=
| Ds_nil n f : dlayouts sz n f [] []
| Ds_cons n f d l a b : dlayout sz n f d a -> dlayouts sz n f l b -> dlayouts sz n f (d :: l) (a ++ b).

(* ---- texts with blanks between them ---- *)

Definition blank (s : ustr) : Prop := Forall (fun c => is_layout_char c = true) s.

(* [spaced ts s]: [s] consists of the texts [ts], verbatim and in this order,
   with only spaces and line feeds before, between and after them. *)
Inductive spaced : list ustr -> ustr -> Prop :=
| Sp_end b : blank b -> spaced [] b
| Sp_text b t ts s : blank b -> spaced ts s -> spaced (t :: ts) (b ++ t ++ s).

(* The texts of a document (of a group: of its first alternative), without the
   lone separating spaces. *)
Fixpoint words (d : doc) : list ustr :=
  match d with
  | Text s _ => if ustr_eqb s [c_sp] then [] else [s]
  | Flat x | Indent _ x | Dedent _ x => words x
  | Concat l => flat_map words l
  | Choice x _ => words x
  | _ => []
  end.
