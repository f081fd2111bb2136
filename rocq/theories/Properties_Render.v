(** C44: objects carrying documented values always render.  Vocabulary: SpecRender.v ([well_formed]). *)
From Coq Require Import List NArith ZArith Bool String Lia.
From Verif Require Import PyStr Values Schema Parse Date Markdown Basics StrFacts SpecParse ParseFacts4
  MdFacts SpecMd MdFacts2 LeafFacts SpecErr ErrFacts Properties_Date SpecRender RenderFacts RenderFacts2 ParseFacts3 ParseFacts5
  Properties_Marks Properties_Nodes Properties_Layout Properties_Errors Properties_Quote Properties_Lists.
Import ListNotations.
Open Scope string_scope.
Open Scope list_scope.

(** Strict rendering (and hence also ignore_error=True) returns a string. *)
Theorem C44_well_formed_renders : forall E w v n ign, snd (parse_node w v) = Ok n -> well_formed n ->
  exists x, to_markdown E n ign = Ok (VStr x).
Proof.
  intros E w v n ign HP HW. apply parse_consistent in HP. destruct (proj1 (render_all E n) HP HW None (or_introl eq_refl)) as [x H].
  exists x. destruct ign; [now apply ignore_conservative|exact H].
Qed.
(** The same for lists called with a nesting level. *)
Theorem C44_lists_at_every_level : forall E w v n l ign, snd (parse_node w v) = Ok n -> well_formed n ->
  In (n_kind n) [KbulletList; KorderedList; KtaskList] -> exists x, to_md E n (Some l) ign = Ok (VStr x).
Proof.
  intros E w v n l ign HP HW HK. apply parse_consistent in HP. destruct (proj1 (render_all E n) HP HW (Some l)) as [x H].
  { right. destruct HK as [<-|[<-|[<-|[]]]]; reflexivity. }
  exists x. destruct ign; [now apply ignore_conservative|exact H].
Qed.

(** A document with most node types is well-formed. *)
Definition at1 (k : string) (x : value) : str * value := (s "attrs", VDict [(s k, x)]).
Definition con (l : list value) : str * value := (s "content", VList l).
Definition ex_rich : value :=
  ex_doc [ VDict [tyv "heading"; at1 "level" (VInt 2); con [tx "Title"]];
           VDict [tyv "paragraph"; con [ VDict [tyv "text"; (s "text", VStr (s "x")); (s "marks", VList [VDict [tyv "code"]; VDict [tyv "link"; at1 "href" (VStr (s "http://h"))]])];
                                         VDict [tyv "hardBreak"];
                                         VDict [tyv "date"; at1 "timestamp" (VStr (s "1700000000000"))];
                                         VDict [tyv "emoji"; at1 "shortName" (VStr (s ":a:"))];
                                         VDict [tyv "mention"; at1 "id" (VStr (s "1"))];
                                         VDict [tyv "inlineCard"; at1 "url" (VStr (s "http://u"))] ];
                  (s "marks", VList [VDict [tyv "indentation"; at1 "level" (VInt 2)]])];
           ex_bullets; ex_ordered; ex_tasks;
           VDict [tyv "codeBlock"; con [tx "x = 1"]];
           VDict [tyv "panel"; at1 "panelType" (VStr (s "info")); con [ex_p "note"]];
           VDict [tyv "rule"];
           VDict [tyv "mediaSingle"; con [VDict [tyv "media"; at1 "type" (VStr (s "file"))]]];
           VDict [tyv "table"; con [VDict [tyv "tableRow"; con [VDict [tyv "tableHeader"; con [ex_p "h"]]]];
                                    VDict [tyv "tableRow"; con [VDict [tyv "tableCell"; con [ex_p "c"]]]]]] ].
Ltac wf_step :=
  match goal with
  | |- forall cs c, children _ cs -> _ => intros cs c HCH HIN HKC; cbv [children n_content] in HCH;
        first [discriminate HCH | injection HCH as <-; cbn [In] in HIN]
  | H : _ \/ _ |- well_formed _ => destruct H as [<-|H]
  | H : False |- _ => destruct H
  | H : kept_child _ _ = true |- _ => clear H
  | |- well_formed _ => apply wf
  | |- values_fine _ => cbv beta iota delta [values_fine n_kind]
  | |- True => exact I
  | |- _ /\ _ => split
  | |- may_hold_children _ => first [left; reflexivity|right]
  | |- holds_children _ => eexists; reflexivity
  | |- has_attr _ _ _ => eexists; split; [reflexivity|vm_compute; reflexivity]
  | |- Forall _ (marks_of _) => cbv [marks_of n_marks]
  | |- Forall _ [] => constructor
  | |- Forall _ (_ :: _) => constructor
  | |- indentation_fine _ => intros HX; first [discriminate HX|eexists; eexists; split; [reflexivity|vm_compute; reflexivity]]
  | |- ~ is_code _ => intros HX; discriminate HX
  | |- text_fine _ => eexists; split; [reflexivity|]
  | |- Exists is_code _ -> _ => first
      [ intros HX; exfalso; cbv [marks_of n_marks] in HX; solve [inversion HX]
      | intros _ ]
  | |- block_marks_fine _ => split
  | |- one_line _ => let HY := fresh in intros HY; vm_compute in HY; intuition discriminate
  | |- link_one_line _ => intros HX; first [discriminate HX|eexists; eexists; split; [|split; [|split]]]
  | |- mark_has_attr _ _ _ => eexists; split; [reflexivity|vm_compute; reflexivity]
  | |- forall x, _ = VStr x -> _ => let HY := fresh in intros ? HY; discriminate HY
  | |- children _ _ => reflexivity
  | |- forall r, In r _ -> exists c cs, children r (c :: cs) => intros r HIN; cbn [In] in HIN
  | H : _ \/ _ |- exists c cs, children _ (c :: cs) => destruct H as [<-|H]
  | |- exists v ts, has_attr _ _ _ /\ milliseconds _ _ /\ _ =>
      exists (VStr (dec 1700000000000)), 1700000000000%Z; split; [|split; [apply ms_str; vm_compute; lia|lia]]
  | |- n_attrs _ = AOpt \/ _ => left; reflexivity
  | |- _ = s "file" \/ _ => left; reflexivity
  | |- exists _, _ => eexists
  | |- (exists _, _) \/ (exists _ _, _) => right
  end.
Example C44_example : (exists w, snd (parse_node w ex_rich) = Ok (get ex_rich)) /\ well_formed (get ex_rich).
Proof. split; [exists true; vm_compute; reflexivity|]. evaluated ex_rich. repeat wf_step. Qed.

(** ---------------------------------------------------------------- from the input dictionary *)
(** A dictionary that carries documented values (SpecRender.v, [documented]) parses, and the object renders, whatever
    unknown elements, undeclared keys and presentation attributes it contains besides. *)
Theorem C44_documented_input_renders : forall E w v ign, documented v ->
  exists n x, snd (parse_node w v) = Ok n /\ to_markdown E n ign = Ok (VStr x).
Proof.
  intros E w v ign HD. pose proof (documented_acceptable v HD) as HA. apply (parse_ok_iff w) in HA as [n HP].
  pose proof (documented_well_formed v HD n (parse_represents v w n HP)) as HW.
  destruct (C44_well_formed_renders E w v n ign HP HW) as [x HX]. eauto.
Qed.
Definition ex_unknown : value := VDict [tyv "layoutSection"; con [ex_p "lost"]].
Definition ex_small : value :=
  ex_doc [ ex_unknown;
           VDict [tyv "paragraph"; (s "unknownKey", VNone); con [VDict [tyv "date"; at1 "timestamp" (VInt 0)]]];
           VDict [tyv "table"; con [VDict [tyv "tableRow"; con [VDict [tyv "tableCell"; con [ex_p "c"]]]]]] ].
Ltac dc_step :=
  match goal with
  | |- documented ?v => let k := eval vm_compute in
        (match v with VDict d => match lookup (s "type") d with Some t => node_class_of t | None => Missing end | _ => Missing end) in
        match k with Found ?k => apply (documented_element _ k) end
  | |- lookup _ _ = Some _ => vm_compute; reflexivity
  | |- own_fields_acceptable _ _ = true => vm_compute; reflexivity
  | |- forall v, lookup _ _ = Some v -> _ => let H := fresh in intros v H; vm_compute in H; injection H as <-; eexists; reflexivity
  | |- forall v, lookup _ _ = Some v -> _ => let H := fresh in intros v H; vm_compute in H; discriminate H
  | |- forall y, In y (own_children ?d) -> documented y =>
        let l := eval cbv in (own_children d) in change (own_children d) with l;
        let H := fresh in intros y H; cbn [In] in H; repeat (destruct H as [<-|H]); [..|destruct H]
  end.
Example C44_documented_example : documented ex_small.
Proof.
  repeat dc_step; cbn [input_fine]; try exact I.
  - split; constructor.
  - exists 0%Z. split; [|lia]. match goal with |- milliseconds ?v _ => let x := eval vm_compute in v in change v with x end. constructor.
  - intros y HY. match type of HY with In _ ?l => let x := eval vm_compute in l in change l with x in HY end. destruct HY as [<-|[]].
    eexists. split; [reflexivity|]. split; [vm_compute; reflexivity|]. vm_compute. discriminate.
  - split; constructor.
  - eexists. split; [vm_compute; reflexivity|]. split; [constructor|]. intros (m & HM & _). vm_compute in HM. destruct HM.
Qed.
