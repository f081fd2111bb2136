(** C66: rendering is compositional. *)
From Coq Require Import List NArith ZArith Bool String Lia.
From Verif Require Import PyStr Values Schema Parse Date Markdown Basics MdFacts SpecSubst SubstFacts Properties_Marks Properties_Nodes.
Import ListNotations.
Open Scope string_scope.
Open Scope list_scope.

(** C66: replace any object, at any depth of any tree, by one with the same type that prints
    the same: the Markdown of the whole tree (or the exception raised) is unchanged. The only
    places excluded are the children the parent looks into ([inspected]). *)
Theorem C66_replace_equal_text E t t' ign :
  replaced E None t t' -> to_markdown E t ign = to_markdown E t' ign.
Proof. intros H. apply replaced_strong in H as [[_ H] _]. apply H. Qed.
(** ... also as part of a list at any indentation level. *)
Theorem C66_replace_equal_text_any_level E parent t t' :
  replaced E parent t t' -> prints_same E t t'.
Proof. intros H. apply replaced_strong in H as [[_ H] _]. exact H. Qed.
(** ... and however many replacements are made, one after the other. *)
Inductive replaced_many (E : runtime) : node -> node -> Prop :=
| rm_none t : replaced_many E t t
| rm_step t t1 t2 : replaced E None t t1 -> replaced_many E t1 t2 -> replaced_many E t t2.
Theorem C66_replace_many E t t' ign :
  replaced_many E t t' -> to_markdown E t ign = to_markdown E t' ign.
Proof. induction 1; [reflexivity|]. etransitivity; [|eassumption]. now apply C66_replace_equal_text. Qed.

(** Beside the theorems: an underlined text replaced by a plain one, inside a list item of a
    list of a document; both trees are obtained by parsing. *)
Definition jtxt (marks : list value) (x : string) : value :=
  VDict ([tyv "text"; (s "text", VStr (s x))] ++ match marks with [] => [] | _ => [(s "marks", VList marks)] end).
Definition under : value := VDict [tyv "underline"].
Definition jnode (ty : string) (l : list value) : value := VDict [tyv ty; (s "content", VList l)].
Definition page (x : value) : value :=
  VDict [tyv "doc"; (s "version", VInt 1); (s "content", VList
    [jnode "paragraph" [jtxt [] "intro"];
     jnode "bulletList" [jnode "listItem" [jnode "paragraph" [jtxt [] "see "; x; jtxt [] "!"]]]])].
Ltac evaluated v := let n := eval vm_compute in (get v) in change (get v) with n.
Example C66_example :
  replaced rt0 None (get (page (jtxt [under] "here"))) (get (page (jtxt [] "here"))) /\
  get (page (jtxt [under] "here")) <> get (page (jtxt [] "here")) /\
  (exists w, snd (parse_node w (page (jtxt [under] "here"))) = Ok (get (page (jtxt [under] "here")))) /\
  (exists w, snd (parse_node w (page (jtxt [] "here"))) = Ok (get (page (jtxt [] "here")))) /\
  to_markdown rt0 (get (page (jtxt [] "here"))) false =
    Ok (VStr (s "intro" ++ nl ++ nl ++ s "- see here!" ++ nl)).
Proof.
  split; [|split; [|split; [exists true; vm_compute; reflexivity|split; [exists true; vm_compute; reflexivity|vm_compute; reflexivity]]]].
  - evaluated (page (jtxt [under] "here")). evaluated (page (jtxt [] "here")).
    match goal with |- replaced _ _ (Node _ _ _ _ _ (Items [?a; _]) _) _ => apply (replaced_below rt0 None _ _ _ _ _ _ [a] []) end.
    apply (replaced_below rt0 _ _ _ _ _ _ _ [] []).
    apply (replaced_below rt0 _ _ _ _ _ _ _ [] []).
    match goal with |- replaced _ _ (Node _ _ _ _ _ (Items [?a; _; ?b]) _) _ => apply (replaced_below rt0 _ _ _ _ _ _ _ [a] [b]) end.
    apply replaced_here; [reflexivity|intros []|]. intros [lv|] ign; vm_compute; reflexivity.
  - evaluated (page (jtxt [under] "here")). evaluated (page (jtxt [] "here")). discriminate.
Qed.

(** The exclusion is needed: two list items that print the same on their own, in a list. *)
Definition item_a : value := jnode "listItem" [jtxt [] "a "; jtxt [] "b"].
Definition item_b : value := jnode "listItem" [jtxt [] "a b"].
Lemma C66_list_items_excluded :
  n_type (get item_a) = n_type (get item_b) /\ prints_same rt0 (get item_a) (get item_b) /\
  to_markdown rt0 (get (jnode "bulletList" [item_a])) false <> to_markdown rt0 (get (jnode "bulletList" [item_b])) false.
Proof.
  split; [reflexivity|split].
  - intros [lv|] [|]; vm_compute; reflexivity.
  - vm_compute. discriminate.
Qed.
(** ... and so is the equality of types: a header cell and a plain cell print the same, but
    not as part of a table. *)
Definition cell (ty : string) : value := jnode ty [jnode "paragraph" [jtxt [] "x"]].
Definition grid (c : value) : value := jnode "table" [jnode "tableRow" [c]].
Lemma C66_types_needed :
  prints_same rt0 (get (cell "tableHeader")) (get (cell "tableCell")) /\
  to_markdown rt0 (get (grid (cell "tableHeader"))) false <> to_markdown rt0 (get (grid (cell "tableCell"))) false.
Proof.
  split.
  - intros [lv|] [|]; vm_compute; reflexivity.
  - vm_compute. discriminate.
Qed.
