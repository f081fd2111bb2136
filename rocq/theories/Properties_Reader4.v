(** C77, whole lists: what a Markdown reader gets of a bullet or ordered list whose items hold texts and lists of the same kind in any order, at any depth. *)
From Coq Require Import List NArith ZArith Bool String Lia.
From Verif Require Import PyStr Values Schema Parse Date Markdown Basics StrFacts MarkFacts Collapse SpecParse ParseFacts4 MdFacts SpecMd MdFacts2 LeafFacts LayoutFacts SpecErr ErrFacts SpecList ListFacts2 SpecTable TableFacts
  SpecReader SpecSeen ReaderFacts ReaderFacts2 ReaderFacts3 ReaderFacts4 ReaderFacts5 ReaderFacts6 ReaderFacts7 ReaderFacts8 ReaderFacts9 ReaderFacts10 Properties_Marks Properties_Nodes Properties_Layout Properties_Table Properties_Lists Properties_Size Properties_Reader Properties_Reader2.
Import ListNotations.
Open Scope string_scope.
Open Scope list_scope.
Open Scope nat_scope.

(** ---------------------------------------------------------------- what the reader gets *)
(** An item of a list: its number, the lines of its paragraph, the items below it. *)
Inductive got := Got (number : Z) (ls : list str) (below : list got).
Fixpoint got_events (own : nkind) (x : got) : list event :=
  match x with Got z ls below => item_mark own z :: EPara ls :: flat_map (got_events own) below ++ [EEnd] end.
(** More text goes to the paragraph of the last item below, at whatever depth. *)
Fixpoint more_text (l : list str) (x : got) : got :=
  match x with
  | Got z ls below =>
      match below with
      | [] => Got z (ls ++ l) []
      | _ => Got z ls ((fix last_of (xs : list got) : list got := match xs with [] => [] | y :: r => match r with [] => [more_text l y] | _ => y :: last_of r end end) below)
      end
  end.
(** More items go to the items below. *)
Definition more_items (xs : list got) (x : got) : got := match x with Got z ls below => Got z ls (below ++ xs) end.
(** The list n, its items numbered from z: each item begins with a text; texts and lists of the same kind follow in any order. A nested list is read
    only below a marker of at most four columns: a bullet, or a number below 100. *)
Inductive list_got (E : runtime) (own : nkind) : Z -> node -> list got -> Prop :=
| lg_list z n cs xs : n_kind n = own -> n_content n = Items cs -> filter is_item cs <> [] -> items_got E own z (filter is_item cs) xs -> list_got E own z n xs
with items_got (E : runtime) (own : nkind) : Z -> list node -> list got -> Prop :=
| ig_nil z : items_got E own z [] []
| ig_cons z item p bs ls x rest xs : n_content item = Items (p :: bs) -> item_lines E own p ls -> number_ok own z -> blocks_got E own z (Got z ls []) bs x ->
    items_got E own (z + 1) rest xs -> items_got E own z (item :: rest) (x :: xs)
with blocks_got (E : runtime) (own : nkind) : Z -> got -> list node -> got -> Prop :=
| bg_nil z x : blocks_got E own z x [] x
| bg_text z x b bs ls y : item_lines E own b ls -> blocks_got E own z (more_text ls x) bs y -> blocks_got E own z x (b :: bs) y
| bg_list z x b bs xs y : list_got E own 1 b xs -> (own = KorderedList -> (z < 100)%Z) -> blocks_got E own z (more_items xs x) bs y -> blocks_got E own z x (b :: bs) y.

(** ---------------------------------------------------------------- proofs *)
Fixpoint tree_of (own : nkind) (x : got) : tree := match x with Got z ls below => Tree (own_mark own z) (hd [] ls) (tl ls) (map (tree_of own) below) end.
Fixpoint got_ind' (P : got -> Prop) (H : forall z ls below, Forall P below -> P (Got z ls below)) (x : got) : P x :=
  match x with Got z ls below => H z ls below ((fix go l : Forall P l := match l with [] => Forall_nil _ | k :: l' => Forall_cons _ (got_ind' P H k) (go l') end) below) end.
Inductive fine (own : nkind) : got -> Prop :=
| fine_got z ls below : ls <> [] -> good (tree_of own (Got z ls below)) -> Forall (fine own) below -> fine own (Got z ls below).
Lemma fine_good own x : fine own x -> good (tree_of own x). Proof. now intros [z ls below _ H _]. Qed.
Lemma tree_got_events own x : fine own x -> tree_events (tree_of own x) = got_events own x.
Proof.
  induction x as [z ls below IH] using got_ind'. intros H. inversion H as [? ? ? HN _ HF]; subst. cbn [tree_of tree_events got_events]. rewrite own_mark_event. destruct ls as [|l ls]; [now destruct HN|]. cbn [hd tl]. do 3 f_equal.
  clear H HN. induction IH as [|y r HY _ IHr]; [reflexivity|]. inversion HF; subst. cbn [map flat_map]. now rewrite HY, IHr.
Qed.
Lemma flat_got_events own xs : Forall (fine own) xs -> flat_map tree_events (map (tree_of own) xs) = flat_map (got_events own) xs.
Proof. induction 1 as [|x xs H _ IH]; [reflexivity|]. cbn [map flat_map]. now rewrite IH, (tree_got_events own x H). Qed.
Definition last_of (l : list str) : list got -> list got := fix last_of (xs : list got) : list got := match xs with [] => [] | y :: r => match r with [] => [more_text l y] | _ => y :: last_of r end end.
Lemma more_text_got l z ls below : more_text l (Got z ls below) = match below with [] => Got z (ls ++ l) [] | _ => Got z ls (last_of l below) end.
Proof. reflexivity. Qed.
Lemma last_of_app l xs y : last_of l (xs ++ [y]) = xs ++ [more_text l y].
Proof. induction xs as [|x xs IH]; [reflexivity|]. cbn [app last_of]. destruct (xs ++ [y]) as [|u r] eqn:E; [destruct xs; discriminate E|]. cbn [last_of] in IH. now rewrite <- IH. Qed.
Lemma more_text_app l z ls xs y : more_text l (Got z ls (xs ++ [y])) = Got z ls (xs ++ [more_text l y]).
Proof. rewrite more_text_got, last_of_app. now destruct xs. Qed.
Lemma last_cases {A} (l : list A) : l = [] \/ exists xs y, l = xs ++ [y].
Proof. induction l as [|y xs _] using rev_ind; [now left|right; eauto]. Qed.
Lemma more_text_lines own l x : fine own x -> forall d, tree_lines d (tree_of own (more_text l x)) = tree_lines d (tree_of own x) ++ l.
Proof.
  induction x as [z ls below IH] using got_ind'. intros H d. inversion H as [? ? ? HN _ HF]; subst. destruct (last_cases below) as [->|(xs & y & ->)].
  - cbn [more_text tree_of tree_lines map flat_map]. rewrite !app_nil_r. destruct ls as [|t more]; [now destruct HN|]. reflexivity.
  - rewrite more_text_app. cbn [tree_of tree_lines]. apply Forall_app in IH as [_ IH]. apply Forall_app in HF as [_ HF]. inversion IH as [|? ? IHy _]; subst. inversion HF; subst.
    rewrite !map_app, !flat_map_app. cbn [map flat_map]. rewrite IHy by assumption. rewrite !app_nil_r. cbn [app]. now rewrite <- !app_assoc.
Qed.
Lemma more_text_mark own l x : tree_mark (tree_of own (more_text l x)) = tree_mark (tree_of own x).
Proof. destruct x as [z ls below]. rewrite more_text_got. now destruct below. Qed.
Lemma fine_intro own z ls below : mark_ok (own_mark own z) -> ls <> [] -> Forall text_line ls -> Forall (fine own) below ->
  match below with [] => True | y :: _ => mark_width (own_mark own z) <= 4 /\ interrupts (tree_mark (tree_of own y)) end -> fine own (Got z ls below).
Proof.
  intros HM HN HT HF HW. constructor; [exact HN| |exact HF]. cbn [tree_of]. destruct ls as [|t more]; [now destruct HN|]. inversion HT; subst. constructor; try assumption; [now destruct below|].
  rewrite Forall_map. eapply Forall_impl; [|exact HF]. intros y. apply fine_good.
Qed.
Lemma fine_elim own z ls below : fine own (Got z ls below) -> mark_ok (own_mark own z) /\ ls <> [] /\ Forall text_line ls /\ Forall (fine own) below /\
  match below with [] => True | y :: _ => mark_width (own_mark own z) <= 4 /\ interrupts (tree_mark (tree_of own y)) end.
Proof.
  intros H. inversion H as [? ? ? HN HG HF]; subst. cbn [tree_of] in HG. inversion HG as [? ? ? ? HM HT HMO HW _]; subst. destruct ls as [|t more]; [now destruct HN|]. cbn [hd tl] in *.
  repeat split; try assumption; [now constructor|]. destruct below; exact HW.
Qed.
Lemma more_text_fine own l x : Forall text_line l -> fine own x -> fine own (more_text l x).
Proof.
  intros HL. induction x as [z ls below IH] using got_ind'. intros H. apply fine_elim in H as (HM & HN & HT & HF & HW). destruct (last_cases below) as [->|(xs & y & ->)].
  - cbn [more_text]. apply fine_intro; try assumption; [intros E; now apply app_eq_nil in E as [E _]|now apply Forall_app].
  - rewrite more_text_app. apply Forall_app in IH as [_ IH]. inversion IH as [|? ? IHy _]; subst. apply Forall_app in HF as [HF1 HF2]. inversion HF2; subst. apply fine_intro; try assumption.
    + apply Forall_app. split; [exact HF1|]. constructor; [now apply IHy|constructor].
    + destruct xs as [|u xs]; [|exact HW]. cbn [app] in *. now rewrite more_text_mark.
Qed.
Lemma more_items_fine own z ls below xs : (own = KorderedList -> (z < 100)%Z) -> number_ok own z -> fine own (Got z ls below) -> Forall (fine own) xs ->
  match xs with [] => True | y :: _ => tree_mark (tree_of own y) = own_mark own 1 end -> fine own (Got z ls (below ++ xs)).
Proof.
  intros HZ HNO H HX HM1. apply fine_elim in H as (HM & HN & HT & HF & HW). apply fine_intro; try assumption; [now apply Forall_app|]. destruct below as [|y below]; [|exact HW]. cbn [app].
  destruct xs as [|y xs]; [exact I|]. split; [now apply own_mark_width|]. rewrite HM1. apply own_mark_one.
Qed.
Definition number_of (x : got) : Z := match x with Got z _ _ => z end.
Scheme list_got_i := Minimality for list_got Sort Prop with items_got_i := Minimality for items_got Sort Prop with blocks_got_i := Minimality for blocks_got Sort Prop.
Combined Scheme got_lists from list_got_i, items_got_i, blocks_got_i.
Section Lists.
  Variables (E : runtime) (own : nkind).
  Definition of_num (d : nat) (st : Z) (i : nat) : Z := ((if Nat.eqb d 0 then st else 1) + Z.of_nat i)%Z.
  Definition Q_list (z : Z) (n : node) (xs : list got) : Prop :=
    Forall (fine own) xs /\ xs <> [] /\ match xs with [] => True | y :: _ => tree_mark (tree_of own y) = own_mark own z end /\
    forall d st, z = of_num d st 0 -> exists ls, outline E own d n ls /\ map (own_print own st) ls = flat_map (tree_lines d) (map (tree_of own) xs).
  Definition Q_items (z : Z) (l : list node) (xs : list got) : Prop :=
    Forall (fine own) xs /\ List.length xs = List.length l /\ match xs with [] => True | y :: _ => tree_mark (tree_of own y) = own_mark own z end /\
    forall d st i, z = of_num d st i -> exists ls, SpecList.items E own d i l ls /\ map (own_print own st) ls = flat_map (tree_lines d) (map (tree_of own) xs).
  Definition Q_blocks (z : Z) (x : got) (l : list node) (y : got) : Prop :=
    number_of x = z -> number_ok own z -> fine own x -> fine own y /\ number_of y = z /\
    forall d st, exists ls, SpecList.blocks E own d l ls /\ tree_lines d (tree_of own y) = tree_lines d (tree_of own x) ++ map (own_print own st) ls.
  Lemma number_more l x : number_of (more_text l x) = number_of x.
  Proof. destruct x as [z ls below]. rewrite more_text_got. now destruct below. Qed.
  Lemma got_to_trees : (forall z n xs, list_got E own z n xs -> Q_list z n xs) /\ (forall z l xs, items_got E own z l xs -> Q_items z l xs) /\ (forall z x l y, blocks_got E own z x l y -> Q_blocks z x l y).
  Proof.
    apply (got_lists E own Q_list Q_items Q_blocks).
    - intros z n cs xs HK HC HN _ (HF & HL & HM & HX). split; [exact HF|]. split; [intros ->; destruct (filter is_item cs); [now destruct HN|discriminate HL]|]. split; [exact HM|].
      intros d st HZ. destruct (HX d st 0 HZ) as (ls & H1 & H2). exists ls. split; [|exact H2]. now apply o_list with cs.
    - intros z. split; [constructor|]. split; [reflexivity|]. split; [exact I|]. intros d st i _. exists []. split; [constructor|reflexivity].
    - intros z item p bs ls x rest xs HC HIL HNO _ HB _ (HF & HL & HM & HX). apply lines_written in HIL as (HKP & (w & HR & HS) & HT). destruct (split_nonempty (rstrip w)) as (t & more & HTM). rewrite HTM in HS. subst ls. inversion HT as [|? ? HT1 HT2]; subst.
      assert (HF0 : fine own (Got z (t :: more) [])) by (apply fine_intro; [now apply own_mark_ok|discriminate|exact HT|constructor|exact I]).
      destruct (HB eq_refl HNO HF0) as (HFX & HNX & HLX). split; [now constructor|]. split; [cbn [List.length]; now rewrite HL|].
      split; [destruct x as [zx lx bx]; cbn [number_of] in HNX; now subst|]. intros d st i HZ. destruct (HLX d st) as (ls1 & H1 & H2). destruct (HX d st (S i)) as (ls2 & H3 & H4); [unfold of_num in *; lia|].
      exists (Item d i t :: map Cont more ++ ls1 ++ ls2). split; [now apply i_cons with p bs w|]. cbn [map flat_map]. rewrite H2. cbn [tree_of tree_lines hd tl map flat_map]. rewrite app_nil_r, (own_print_item own st d i t z HZ), !map_app, H4.
      rewrite map_map, (map_ext _ (fun l => l)) by (intros l; apply own_print_cont). rewrite map_id. cbn [app]. now rewrite <- !app_assoc.
    - intros z x HN HNO HF. split; [exact HF|]. split; [exact HN|]. intros d st. exists []. split; [constructor|]. cbn [map]. now rewrite app_nil_r.
    - intros z x b bs ls y HIL _ HB HN HNO HF. apply lines_written in HIL as (HKP & (w & HR & HS) & HT).
      destruct (HB) as (HFY & HNY & HLY); [now rewrite number_more|exact HNO|now apply more_text_fine|]. split; [exact HFY|]. split; [exact HNY|]. intros d st. destruct (HLY d st) as (ls1 & H1 & H2).
      exists (map Cont (split_on NL (rstrip w)) ++ ls1). split; [now apply b_text|]. rewrite H2, (more_text_lines own ls x HF), map_app, map_map, (map_ext _ (fun l => l)) by (intros l; apply own_print_cont). rewrite map_id, HS. now rewrite <- app_assoc.
    - intros z x b bs xs y HLG (HF1 & HN1 & HM1 & HX1) HZ _ HB HN HNO HF. destruct x as [zx lx bx]. cbn [number_of] in HN. subst zx.
      destruct HB as (HFY & HNY & HLY); [reflexivity|exact HNO|now apply more_items_fine|]. split; [exact HFY|]. split; [exact HNY|]. intros d st. destruct (HLY d st) as (ls1 & H1 & H2). destruct (HX1 (S d) st) as (ls2 & H3 & H4); [reflexivity|].
      exists (ls2 ++ ls1). split.
      + apply b_sub; [inversion HLG; assumption|exact H3| |exact H1]. intros ->. cbn [map] in H4. destruct xs as [|u xs]; [now destruct HN1|]. cbn [flat_map map] in H4. destruct u. discriminate H4.
      + rewrite H2. cbn [more_items tree_of tree_lines]. rewrite !map_app, flat_map_app, H4. cbn [app]. now rewrite <- !app_assoc.
  Qed.
End Lists.
Lemma got_reading E own z n xs : list_got E own z n xs -> exists ls, outline E own 0 n ls /\
  (Forall (fun l => ~ In NL l) (map (own_print own z) ls) -> block_reading (join nl (map (own_print own z) ls)) (flat_map (got_events own) xs) /\ solid (join nl (map (own_print own z) ls))).
Proof.
  intros H. destruct (proj1 (got_to_trees E own) z n xs H) as (HF & HN & _ & HX). destruct (HX 0 z) as (ls & H1 & H2); [unfold of_num; cbn; lia|]. exists ls. split; [exact H1|]. rewrite H2. intros HNL.
  rewrite <- (flat_got_events own xs HF). apply reading_list; [|destruct xs; [now destruct HN|discriminate]|exact HNL]. rewrite Forall_map. eapply Forall_impl; [|exact HF]. intros y. apply fine_good.
Qed.
(** Bullet lists of any size and depth. *)
Theorem C77_bullet_lists : forall E w v n ign xs, snd (parse_node w v) = Ok n -> list_got E KbulletList 1 n xs ->
  exists out, to_markdown E n ign = Ok (VStr out) /\ read out = flat_map (got_events KbulletList) xs.
Proof.
  intros E w v n ign xs HP HL. pose proof (parse_consistent _ _ _ HP) as HC. destruct (got_reading _ _ _ _ _ HL) as (ls & HO & HX). destruct (bullet_sound E 0 n ls HO HC) as (HF & _ & HR).
  destruct (HX HF) as [HB HS]. eexists. split; [destruct ign; [apply ignore_conservative|]; exact (HR eq_refl)|]. exact (read_one _ _ HB HS).
Qed.
(** Ordered lists. *)
Theorem C77_ordered_lists : forall E w v n ign z xs, snd (parse_node w v) = Ok n -> starts_at n z -> list_got E KorderedList z n xs ->
  exists out, to_markdown E n ign = Ok (VStr out) /\ read out = flat_map (got_events KorderedList) xs.
Proof.
  intros E w v n ign z xs HP HST HL. pose proof (parse_consistent _ _ _ HP) as HC. destruct (got_reading _ _ _ _ _ HL) as (ls & HO & HX). destruct (ordered_sound E z 0 n ls HO HC) as (HF & _ & HR).
  destruct (HX HF) as [HB HS]. eexists. split; [destruct ign; [apply ignore_conservative|]; exact (HR eq_refl HST)|]. exact (read_one _ _ HB HS).
Qed.

(** ---------------------------------------------------------------- examples *)
(** Two items: "one", a nested list with the items "deep" and "deeper" in it, "back", another list, "end"; and "two". *)
Definition ex_loose : value := ex_ul [ex_li [ex_p "one"; ex_ul [ex_li [ex_p "deep"; ex_ul [ex_li [ex_p "deeper"]]]]; ex_p "back"; ex_ul [ex_li [ex_p "more"]]; ex_p "end"]; ex_li [ex_p "two"]].
Definition ex_got : list got := [Got 1 [s "one"] [Got 1 [s "deep"] [Got 1 [s "deeper"; s "back"] []]; Got 1 [s "more"; s "end"] []]; Got 2 [s "two"] []].
Ltac no_number := let H := fresh in intros H; discriminate H.
Ltac got_list := eapply lg_list; [reflexivity|reflexivity|vm_compute; discriminate|]; match goal with |- context [filter is_item ?l] => let r := eval vm_compute in (filter is_item l) in change (filter is_item l) with r end.
Example C77_bullet_lists_example : exists n, snd (parse_node true ex_loose) = Ok n /\ list_got rt0 KbulletList 1 n ex_got /\
  flat_map (got_events KbulletList) ex_got = [EBullet; EPara [s "one"]; EBullet; EPara [s "deep"]; EBullet; EPara [s "deeper"; s "back"]; EEnd; EEnd; EBullet; EPara [s "more"; s "end"]; EEnd; EEnd; EBullet; EPara [s "two"]; EEnd].
Proof.
  eexists. split; [vm_compute; reflexivity|]. split; [|reflexivity]. got_list.
  eapply (ig_cons _ _ _ _ _ _ [s "one"]); [reflexivity|item_ok (s "one")|no_number| |].
  - eapply (bg_list _ _ _ _ _ _ [Got 1 [s "deep"] [Got 1 [s "deeper"] []]]); [|no_number|].
    { got_list. eapply (ig_cons _ _ _ _ _ _ [s "deep"]); [reflexivity|item_ok (s "deep")|no_number| |constructor].
      eapply (bg_list _ _ _ _ _ _ [Got 1 [s "deeper"] []]); [|no_number|constructor]. got_list. eapply (ig_cons _ _ _ _ _ _ [s "deeper"]); [reflexivity|item_ok (s "deeper")|no_number|constructor|constructor]. }
    eapply (bg_text _ _ _ _ _ _ [s "back"]); [item_ok (s "back")|].
    eapply (bg_list _ _ _ _ _ _ [Got 1 [s "more"] []]); [|no_number|].
    { got_list. eapply (ig_cons _ _ _ _ _ _ [s "more"]); [reflexivity|item_ok (s "more")|no_number|constructor|constructor]. }
    eapply (bg_text _ _ _ _ _ _ [s "end"]); [item_ok (s "end")|]. constructor.
  - eapply (ig_cons _ _ _ _ _ _ [s "two"]); [reflexivity|item_ok (s "two")|no_number|constructor|constructor].
Qed.
Definition ex_loose_ol : value := ex_ol 9 [ex_li [ex_p "one"; ex_ol 5 [ex_li [ex_p "deep"]]; ex_p "back"]; ex_li [ex_p "two"]].
Ltac is_number := let H := fresh in intros H; vm_compute; intuition discriminate.
Example C77_ordered_lists_example : exists n, snd (parse_node true ex_loose_ol) = Ok n /\ starts_at n 9 /\
  list_got rt0 KorderedList 9 n [Got 9 [s "one"] [Got 1 [s "deep"; s "back"] []]; Got 10 [s "two"] []].
Proof.
  eexists. split; [vm_compute; reflexivity|]. split; [left; vm_compute; reflexivity|]. got_list.
  eapply (ig_cons _ _ _ _ _ _ [s "one"]); [reflexivity|item_ok (s "one")|is_number| |].
  - eapply (bg_list _ _ _ _ _ _ [Got 1 [s "deep"] []]); [|is_number|].
    { got_list. eapply (ig_cons _ _ _ _ _ _ [s "deep"]); [reflexivity|item_ok (s "deep")|is_number|constructor|constructor]. }
    eapply (bg_text _ _ _ _ _ _ [s "back"]); [item_ok (s "back")|]. constructor.
  - eapply (ig_cons _ _ _ _ _ _ [s "two"]); [reflexivity|item_ok (s "two")|is_number|constructor|constructor].
Qed.
