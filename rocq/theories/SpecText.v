(** Vocabulary for C20 (no textual content is lost), independent of the proofs. *)
From Coq Require Import List NArith ZArith Bool String.
From Verif Require Import PyStr Values Schema Parse Basics SpecParse SpecMd SpecTable.
Import ListNotations.
Open Scope string_scope.
Open Scope list_scope.

(** The strings [ts] occur in [x], in this order and without overlapping. *)
Inductive in_order : list str -> str -> Prop :=
| io_nil x : in_order [] x
| io_cons g t ts x : in_order ts x -> in_order (t :: ts) (g ++ t ++ x).

(** The lines of a text, stripped, without the blank ones: what has to survive of it.
    Whitespace around lines is layout. *)
Fixpoint segments (x : str) : list str :=
  match x with
  | [] => [[]]
  | c :: r => if is_lb c then [] :: segments r
              else match segments r with [] => [[c]] | l :: ls => (c :: l) :: ls end
  end.
Definition nonempty (x : str) : bool := match x with [] => false | _ => true end.
Definition pieces (x : str) : list str := filter nonempty (map strip (segments x)).
Definition pieces_of (v : value) : list str := match v with VStr x => pieces x | _ => [] end.

(** Marks that replace the text they are applied to: indentation, and links with a title. *)
Definition replaces_text (m : mark) : bool :=
  match m_kind m, m_attrs m with
  | Mindentation, _ => true
  | Mlink, AObj l => match lookup (s "title") l with Some (VStr _) => true | _ => false end
  | _, _ => false
  end.
Definition kept_by (ma : slot mark) (ts : list str) : list str :=
  match ma with Items ms => if existsb replaces_text ms then [] else ts | _ => ts end.

Definition attr_value (a : attrs) (f : string) : value :=
  match a with AObj l => match lookup (s f) l with Some v => v | None => VOpt end | _ => VOpt end.
Definition is_string (v : value) : bool := match v with VStr _ => true | _ => false end.
Definition equals (v : value) (x : string) : bool := match v with VStr y => str_eqb y (s x) | _ => false end.

(** The texts an attribute-only node stands for. *)
Definition leaf_texts (k : nkind) (a : attrs) (ma : slot mark) : list str :=
  let p f := pieces_of (attr_value a f) in
  match k with
  | Kemoji => if is_string (attr_value a "text") then p "text" else p "shortName"
  | Kmention | Kstatus | Kextension => p "text"
  | KinlineCard | KblockCard | KembedCard => p "url"
  | Kmedia => if equals (attr_value a "type") "external" then kept_by ma (p "alt" ++ p "url")
              else if equals (attr_value a "type") "file" then kept_by ma (p "alt" ++ p "id")
              else []
  | _ => []
  end.

(** The texts of a node that its Markdown shows, in document order. *)
Fixpoint texts (n : node) : list str :=
  match n with
  | Node k ty ve tx a co ma =>
      let sub := match co with
                 | Items l => List.concat (map (fun c => if kept_child k c then texts c else []) l)
                 | _ => []
                 end in
      match k with
      | Ktext => kept_by ma (match tx with Some v => pieces_of v | None => [] end)
      | Kparagraph | Kexpand => kept_by ma sub
      | KtableCell | KtableHeader => map escape sub
      | Kemoji | Kmention | Kstatus | Kextension | KinlineCard | KblockCard | KembedCard | Kmedia => leaf_texts k a ma
      | Krule | KhardBreak | Kdate => []
      | _ => sub
      end
  end.

(** All the text leaves of a tree, whether shown or not, pipes escaped inside table cells.
    (The classes of the third branch have no children.) *)
Fixpoint all_texts (n : node) : list str :=
  match n with
  | Node k ty ve tx a co ma =>
      let sub := match co with Items l => List.concat (map all_texts l) | _ => [] end in
      match k with
      | Ktext => match tx with Some (VStr t) => [t] | _ => [] end
      | KtableCell | KtableHeader => map escape sub
      | Kemoji | Kmention | Kstatus | Kextension | KinlineCard | KblockCard | KembedCard | Kmedia | Krule | KhardBreak | Kdate => []
      | _ => sub
      end
  end.
(** The content-preserving trees: mediaGroup, caption and mediaInline are empty, lists contain
    their items only ([kept_child]), no indentation mark and no titled link on texts,
    paragraphs and expands. *)
Fixpoint lossless (n : node) : bool :=
  match n with
  | Node k ty ve tx a co ma =>
      (match co with Items l => forallb (fun c => kept_child k c && lossless c) l | _ => true end) &&
      (match k, ma with
       | (Ktext | Kparagraph | Kexpand), Items ms => negb (existsb replaces_text ms)
       | _, _ => true
       end)
  end.
