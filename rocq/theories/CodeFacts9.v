(** Running the source text (RepoCode.v): the cells of tables and decision items, which go through lines of text. *)
From Coq Require Import List NArith ZArith Bool String Lia.
From Verif Require Import PyStr Values Schema Parse Date Markdown Basics StrFacts PySyntax PySem RepoCode CodeFacts CodeFacts2 CodeFacts3 CodeFacts4 CodeFacts5.
Import ListNotations.
Open Scope string_scope.
Open Scope list_scope.

Definition pstr (x : str) : pv := PV (VStr x).
Lemma map_pstr l : map PV (map VStr l) = map pstr l.
Proof. now rewrite map_map. Qed.
Lemma strs_run l : as_strs (map pstr l) = Val l.
Proof. induction l as [|x l IH]; [reflexivity|]. unfold as_strs in *. cbn [map omap]. rewrite IH. reflexivity. Qed.
Lemma for_each_ok {A B} (g : A -> B) l : for_each (fun x => Ok [g x]) l = Ok (map g l).
Proof. induction l as [|a l IH]; [reflexivity|]. cbn [for_each]. fold (for_each (fun x => Ok [g x])). rewrite IH. reflexivity. Qed.

Section Lines.
Variable E : runtime.
Notation class_ok := (class_ok E).
Notation CL k := (call E repo node_cls mark_cls k).
Notation GA := (get_attr repo node_cls mark_cls).
Lemma bar_run x : data_method E (PV (VStr x)) "replace" [PV (VStr (s "|")); PV (VStr (s "\|"))] = Val (PV (VStr (replace (s "|") (s "\|") x))).
Proof. reflexivity. Qed.
Lemma lstrip_run x : data_method E (PV (VStr x)) "lstrip" [PV (VStr (s " "))] = Val (PV (VStr (lstrip_sp x))).
Proof. reflexivity. Qed.
Lemma cell_round (x : str) : (List.length (lstrip_sp x) <= List.length x)%nat.
Proof.
  unfold lstrip_sp. induction x as [|c x IH]; [apply le_n|]. cbn [lstrip_by List.length]. destruct (SP =? c)%N; cbn [List.length]; lia.
Qed.
Lemma repeat_nat_run x n : repeat_str x (Z.of_nat n) = repeat_nat x n.
Proof. unfold repeat_str. now rewrite Nat2Z.id. Qed.
Ltac cell_ x ls env0 :=
  match goal with |- context [iterate ?st (map (fun y : str => PV (VStr y)) ls) ?en] =>
    assert (HR : ran env0 (for_each (fun l => Ok [cell_line l]) ls) (@nil str) (iterate st (map pstr ls) en));
    [refine (iterate_for pstr env0 st (fun l => Ok [cell_line l]) ls _ [] (PUnbound, PUnbound, PUnbound));
     rewrite Forall_forall; intros l _ acc j; unfold pstr; py; rewrite lstrip_run; py; unfold cell_line;
     pose proof (cell_round l); rewrite <- Nat2Z.inj_sub by assumption;
     change 0%Z with (Z.of_nat 0);
     replace (Z.of_nat 0 <? Z.of_nat (List.length l - List.length (lstrip_sp l)))%Z with (0 <? List.length l - List.length (lstrip_sp l))%nat
       by (apply eq_true_iff_eq; rewrite Z.ltb_lt, Nat.ltb_lt; lia);
     destruct (0 <? List.length l - List.length (lstrip_sp l))%nat; py;
     [cbn [times]; rewrite ?repeat_nat_run; py|];
     (eexists (_, _, _); left; rewrite map_app; reflexivity)|]
  end.
Lemma class_tableCell ty ve tx a co ma : class_ok (Node KtableCell ty ve tx a co ma).
Proof.
  class_ E m_NodeTableCell_to_markdown k HF HK HAC ign. field_of HF co HCF HCP. unfold table_cell_md. content_ E co ign HCF HCP HK x.
  rewrite bar_run. py. set (ls := split_on _ _).
  cell_ x ls (fun (acc : list str) (j : pv * pv * pv) => [("self", PN (Node KtableCell ty ve tx a co ma));
         ("ignore_error", PV (VBool ign));
         ("md", PV (VStr (replace (s "|") (s "\|") x)));
         ("lines", PL false (map pstr ls));
         ("processed_lines", PL true (map pstr acc)); ("line", fst (fst j));
         ("stripped", snd (fst j)); ("leading_spaces", snd j)]).
  rewrite for_each_ok in HR. destruct HR as [j HR]. cbn [app] in HR. unfold pstr in HR at 1. rewrite HR. py.
  rewrite strs_run. reflexivity.
Qed.
Lemma class_tableHeader ty ve tx a co ma : class_ok (Node KtableHeader ty ve tx a co ma).
Proof.
  class_ E m_NodeTableHeader_to_markdown k HF HK HAC ign. field_of HF co HCF HCP. unfold table_cell_md. content_ E co ign HCF HCP HK x.
  rewrite bar_run. py. set (ls := split_on _ _).
  cell_ x ls (fun (acc : list str) (j : pv * pv * pv) => [("self", PN (Node KtableHeader ty ve tx a co ma));
         ("ignore_error", PV (VBool ign));
         ("md", PV (VStr (replace (s "|") (s "\|") x)));
         ("lines", PL false (map pstr ls));
         ("processed_lines", PL true (map pstr acc)); ("line", fst (fst j));
         ("stripped", snd (fst j)); ("leading_spaces", snd j)]).
  rewrite for_each_ok in HR. destruct HR as [j HR]. cbn [app] in HR. unfold pstr in HR at 1. rewrite HR. py.
  rewrite strs_run. reflexivity.
Qed.
Lemma quote_iter {J} (env0 : list str -> nat -> bool -> J -> env) st :
  (forall acc lc pe j l, exists j' sg, (sg = Next \/ sg = Cont) /\ st (env0 acc lc pe j) (pstr l) = Some (match rstrip l with
     | [] => if (Nat.leb lc 1 || pe)%bool then env0 acc lc pe j' else env0 (acc ++ [s ">"]) lc true j'
     | line => env0 (acc ++ [s "> " ++ line]) (S lc) false j'
     end, sg)) ->
  forall ls acc lc pe j, exists lc' pe' j', iterate st (map pstr ls) (env0 acc lc pe j) = Some (env0 (acc ++ quote_lines lc pe ls) lc' pe' j', Next).
Proof.
  intros HS. induction ls as [|l ls IH]; intros acc lc pe j; [exists lc, pe, j; cbn [quote_lines]; now rewrite app_nil_r|].
  destruct (HS acc lc pe j l) as (j1 & sg & HG & HE).
  assert (HI : forall en, st (env0 acc lc pe j) (pstr l) = Some (en, sg) -> iterate st (map pstr (l :: ls)) (env0 acc lc pe j) = iterate st (map pstr ls) en)
    by (intros en H; cbn [map iterate]; rewrite H; now destruct HG as [-> | ->]).
  rewrite (HI _ HE). clear HI HE HG. cbn [quote_lines]. destruct (rstrip l) as [|c r].
  - destruct ((lc <=? 1)%nat || pe)%bool; [apply IH|]. destruct (IH (acc ++ [s ">"]) lc true j1) as (lc' & pe' & j' & IH').
    exists lc', pe', j'. rewrite <- app_assoc in IH'. exact IH'.
  - destruct (IH (acc ++ [s "> " ++ c :: r]) (S lc) false j1) as (lc' & pe' & j' & IH').
    exists lc', pe', j'. rewrite <- app_assoc in IH'. exact IH'.
Qed.
Lemma class_decisionItem ty ve tx a co ma : class_ok (Node KdecisionItem ty ve tx a co ma).
Proof.
  class_ E m_NodeDecisionItem_to_markdown k HF HK HAC ign. field_of HF co HCF HCP. unfold decision_item_md. content_ E co ign HCF HCP HK x.
  change 10%N with NL. set (ls := split_on _ _).
  set (env0 := fun (acc : list str) (lc : nat) (pe : bool) (j : pv * pv) =>
        [("self", PN (Node KdecisionItem ty ve tx a co ma));
         ("ignore_error", PV (VBool ign));
         ("item_content", PV (VStr (rstrip x)));
         ("raw_lines", PL false (map pstr ls));
         ("prefixed_lines", PL true (map pstr acc)); ("line_count", PV (VInt (Z.of_nat lc)));
         ("prev_was_empty", PV (VBool pe)); ("line", fst j);
         ("is_empty", snd j)]).
  match goal with |- context [iterate ?st (map (fun y : str => PV (VStr y)) ls) ?en] =>
    destruct (quote_iter env0 st) with (ls := ls) (acc := @nil str) (lc := 0%nat) (pe := false) (j := (PUnbound, PUnbound)) as (lc' & pe' & j' & HR);
    [|change (iterate st (map (fun y : str => PV (VStr y)) ls) en) with (iterate st (map pstr ls) (env0 [] 0%nat false (PUnbound, PUnbound)))]
  end.
  - intros acc lc pe j l. unfold env0, pstr. py. destruct (rstrip l) as [|c r]; py.
    + assert (HL : (Z.of_nat lc <=? 1)%Z = (lc <=? 1)%nat) by (apply eq_true_iff_eq; rewrite Z.leb_le, Nat.leb_le; lia). rewrite HL.
      destruct (lc <=? 1)%nat; py; [eexists (_, _), Cont; split; [now right|reflexivity]|].
      destruct pe; py; [eexists (_, _), Cont; split; [now right|reflexivity]|].
      eexists (_, _), Next; (split; [now left|]). rewrite map_app. reflexivity.
    + eexists (_, _), Next; (split; [now left|]). rewrite map_app, Nat2Z.inj_succ, <- Z.add_1_r. reflexivity.
  - rewrite HR. unfold env0. py. rewrite strs_run. reflexivity.
Qed.
End Lines.
