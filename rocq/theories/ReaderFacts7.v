(** From list nodes to the trees of ReaderFacts5 (C75). *)
From Coq Require Import List NArith ZArith Bool String Lia.
From Verif Require Import PyStr Values Schema Parse Date Markdown Basics StrFacts Collapse MdFacts SpecMd MdFacts2 SpecList ListFacts ListFacts2 SizeFacts3
  SpecReader SpecSeen ReaderFacts ReaderFacts2 ReaderFacts3 ReaderFacts4 ReaderFacts5.
Import ListNotations.
Open Scope string_scope.
Open Scope list_scope.
Open Scope nat_scope.

Lemma dec_nonempty z : dec z <> [].
Proof.
  unfold dec. assert (HU : forall u, u <> Decimal.Nil -> s (DecimalString.NilEmpty.string_of_uint u) <> []).
  { intros u HU. destruct u; [now destruct HU|..]; discriminate. }
  destruct z as [|p|p]; cbn [Z.to_int DecimalString.NilEmpty.string_of_int].
  - discriminate.
  - apply HU. apply DecimalPos.Unsigned.to_uint_nonnil.
  - discriminate.
Qed.
Lemma dec_digits z : (0 <= z)%Z -> Forall (fun c => digit c = true) (dec z).
Proof.
  intros HZ. assert (HU : forall u c, In c (s (DecimalString.NilEmpty.string_of_uint u)) -> (48 <= c <= 57)%N).
  { intros u c. induction u; cbn [DecimalString.NilEmpty.string_of_uint]; [intros []|..];
    (match goal with |- context [s (String ?c ?x)] => let v := eval vm_compute in (Ascii.N_of_ascii c) in
       change (s (String c x)) with (v :: s x) end; intros [<-|H]; [lia|auto]). }
  apply Forall_forall. intros c HC. unfold dec in HC. assert (HB : (48 <= c <= 57)%N).
  { destruct z as [|p|p]; [apply (HU _ c HC)|apply (HU _ c HC)|lia]. }
  unfold digit. apply andb_true_iff. split; apply N.leb_le; lia.
Qed.
Definition own_mark (own : nkind) (z : Z) : mark := match own with KorderedList => Number (dec z) | _ => Bullet end.
Definition own_print (own : nkind) (st : Z) (l : oline) : str := match own with KorderedList => print_ordered st l | _ => print_bullet l end.
Lemma own_mark_ok own z : number_ok own z -> mark_ok (own_mark own z).
Proof.
  intros H. unfold own_mark. destruct own; try exact I. specialize (H eq_refl). cbn [mark_ok]. split; [|apply dec_digits; lia]. split.
  - destruct (dec z) eqn:E; [now apply dec_nonempty in E|cbn; lia].
  - apply (dec_len_pos 9); [lia|]. change (10 ^ Z.of_nat 9)%Z with 1000000000%Z. lia.
Qed.
Lemma own_mark_width own z : number_ok own z -> (own = KorderedList -> (z < 100)%Z) -> mark_width (own_mark own z) <= 4.
Proof.
  intros H H2. unfold own_mark. destruct own; cbn [mark_width]; try lia. specialize (H eq_refl). specialize (H2 eq_refl).
  assert (HL : List.length (dec z) <= 2) by (apply (dec_len_pos 2); [lia|]; change (10 ^ Z.of_nat 2)%Z with 100%Z; lia). lia.
Qed.
Lemma own_mark_event own z : mark_event (own_mark own z) = item_mark own z. Proof. now destruct own. Qed.
Lemma own_mark_one own : interrupts (own_mark own 1). Proof. destruct own; try (left; reflexivity). right. reflexivity. Qed.
Lemma own_print_cont own st l : own_print own st (Cont l) = l. Proof. now destruct own. Qed.
Lemma own_print_item own st d i t z : z = ((if Nat.eqb d 0 then st else 1) + Z.of_nat i)%Z -> own_print own st (Item d i t) = mark_line d (own_mark own z) t.
Proof.
  intros ->. unfold mark_line, own_print, own_mark. destruct own; try reflexivity. cbn [print_ordered print_mark]. unfold indentation, spaces. now rewrite <- !app_assoc.
Qed.
Lemma para_renders E n cs xs : n_kind n = Kparagraph -> bare n -> n_content n = Items cs -> Forall2 (renders E) cs xs -> renders E n (List.concat xs ++ nl).
Proof.
  intros HK HB HC HF. destruct n as [k ty ve tx a co ma]. unfold bare in HB. cbn [n_kind n_content n_marks] in *. subst. unfold renders, to_markdown. cbn [to_md].
  rewrite (content_renders E cs xs) by exact HF. cbn [rbind].
  replace (add_style E ma (VStr (List.concat xs))) with (Ok (VStr (List.concat xs)) : res value); [reflexivity|].
  destruct ma as [| |[|m l]|r]; try reflexivity. now destruct (HB m l).
Qed.
Lemma text_renders E n x : block_text E n x -> exists y, renders E n y /\ rstrip y = rstrip x.
Proof.
  intros [cs xs HK HB HC HF|y _ HR]; [|exists y; split; [exact HR|reflexivity]].
  exists (List.concat xs ++ nl). split; [now apply para_renders with cs|]. generalize (List.concat xs). intros z. unfold rstrip. induction z as [|c z IH]; [reflexivity|]. cbn [app rstrip_by]. now rewrite IH.
Qed.
Scheme list_seen_i := Minimality for list_seen Sort Prop with items_seen_i := Minimality for items_seen Sort Prop with subs_seen_i := Minimality for subs_seen Sort Prop.
Combined Scheme seen_lists from list_seen_i, items_seen_i, subs_seen_i.

Section Lists.
  Variables (E : runtime) (own : nkind).
  Definition of_number (d : nat) (st : Z) (i : nat) : Z := ((if Nat.eqb d 0 then st else 1) + Z.of_nat i)%Z.
  Definition P_list (z : Z) (n : node) (es : list event) : Prop :=
    exists kids, Forall good kids /\ kids <> [] /\ flat_map tree_events kids = es /\ tree_mark (hd (Tree Bullet [] [] []) kids) = own_mark own z /\
      forall d st, z = of_number d st 0 -> exists ls, outline E own d n ls /\ map (own_print own st) ls = flat_map (tree_lines d) kids.
  Definition P_items (z : Z) (l : list node) (es : list event) : Prop :=
    exists kids, Forall good kids /\ List.length kids = List.length l /\ flat_map tree_events kids = es /\ (kids <> [] -> tree_mark (hd (Tree Bullet [] [] []) kids) = own_mark own z) /\
      forall d st i, z = of_number d st i -> exists ls, SpecList.items E own d i l ls /\ map (own_print own st) ls = flat_map (tree_lines d) kids.
  Definition P_subs (l : list node) (es : list event) : Prop :=
    exists kids, Forall good kids /\ (l <> [] -> kids <> [] /\ tree_mark (hd (Tree Bullet [] [] []) kids) = own_mark own 1) /\ (l = [] -> kids = []) /\ flat_map tree_events kids = es /\
      forall d st, exists ls, SpecList.blocks E own d l ls /\ map (own_print own st) ls = flat_map (tree_lines (S d)) kids.
  Lemma lists_to_trees : (forall z n es, list_seen E own z n es -> P_list z n es) /\ (forall z l es, items_seen E own z l es -> P_items z l es) /\ (forall l es, subs_seen E own l es -> P_subs l es).
  Proof.
    apply (seen_lists E own P_list P_items P_subs).
    - intros z n cs es HK HC HN _ (kids & HG & HL & HE & HM & HX). exists kids. assert (HKN : kids <> []) by (intros ->; destruct (filter is_item cs); [now destruct HN|discriminate HL]).
      split; [exact HG|]. split; [exact HKN|]. split; [exact HE|]. split; [now apply HM|]. intros d st HZ. destruct (HX d st 0 HZ) as (ls & H1 & H2). exists ls. split; [|exact H2]. now apply o_list with cs.
    - intros z. exists []. split; [constructor|]. split; [reflexivity|]. split; [reflexivity|]. split; [intros H; now destruct H|]. intros d st i _. exists []. split; [constructor|reflexivity].
    - intros z item p subs x0 t more es rest es' HC HP HR HS HT HMO HNO HW _ (kids1 & HG1 & HN1 & HZ1 & HE1 & HX1) _ (kids2 & HG2 & HL2 & HE2 & HM2 & HX2).
      apply text_renders in HR as (x & HR & HRS). rewrite <- HRS in HS.
      exists (Tree (own_mark own z) t more kids1 :: kids2). split; [|split; [|split; [|split]]].
      + constructor; [|exact HG2]. apply good_tree; [now apply own_mark_ok|exact HT|exact HMO| |exact HG1]. destruct kids1 as [|k kids1]; [exact I|].
        assert (HSN : subs <> []) by (intros ->; now specialize (HZ1 eq_refl)). split; [apply own_mark_width; auto|]. destruct (HN1 HSN) as [_ H1]. cbn [hd] in H1. rewrite H1. apply own_mark_one.
      + cbn [List.length]. now rewrite HL2.
      + cbn [flat_map tree_events]. rewrite HE1, HE2, own_mark_event. cbn [app]. rewrite <- app_assoc. reflexivity.
      + intros _. reflexivity.
      + intros d st i HZ. destruct (HX1 d st) as (ls1 & H1 & H2). destruct (HX2 d st (S i)) as (ls2 & H3 & H4); [unfold of_number in *; lia|].
        exists (Item d i t :: map Cont more ++ ls1 ++ ls2). split; [now apply i_cons with p subs x|]. cbn [map flat_map tree_lines]. rewrite (own_print_item own st d i t z HZ), !map_app, H2, H4.
        rewrite map_map, (map_ext _ (fun l => l)) by (intros l; apply own_print_cont). rewrite map_id. cbn [app]. now rewrite <- !app_assoc.
    - exists []. split; [constructor|]. split; [intros H; now destruct H|]. split; [reflexivity|]. split; [reflexivity|]. intros d st. exists []. split; [constructor|reflexivity].
    - intros n rest es es' HLS (kids1 & HG1 & HN1 & HE1 & HM1 & HX1) _ (kids2 & HG2 & _ & _ & HE2 & HX2). exists (kids1 ++ kids2). split; [apply Forall_app; auto|]. split; [|split; [|split]].
      + intros _. destruct kids1 as [|k kids1]; [now destruct HN1|]. split; [discriminate|exact HM1].
      + discriminate.
      + rewrite flat_map_app, HE1, HE2. reflexivity.
      + intros d st. destruct (HX1 (S d) st) as (ls1 & H1 & H2); [reflexivity|]. destruct (HX2 d st) as (ls2 & H3 & H4). exists (ls1 ++ ls2).
        assert (HK : n_kind n = own) by (inversion HLS; assumption). split; [|rewrite map_app, flat_map_app, H2, H4; reflexivity].
        apply b_sub; [exact HK|exact H1| |exact H3]. intros ->. cbn [map] in H2. destruct kids1 as [|k kids1]; [now destruct HN1|]. cbn [flat_map] in H2. destruct k. discriminate H2.
  Qed.
End Lists.
(** Lists as blocks. *)
Theorem list_reading E own z n es : list_seen E own z n es -> exists ls, outline E own 0 n ls /\
  (Forall (fun l => ~ In NL l) (map (own_print own z) ls) -> block_reading (join nl (map (own_print own z) ls)) es /\ solid (join nl (map (own_print own z) ls))).
Proof.
  intros H. destruct (proj1 (lists_to_trees E own) z n es H) as (kids & HG & HN & HE & _ & HX). destruct (HX 0 z) as (ls & H1 & H2); [unfold of_number; cbn; lia|]. exists ls. split; [exact H1|].
  rewrite H2. intros HF. rewrite <- HE. exact (reading_list kids HG HN HF).
Qed.
