(** to_dict on the heap computes what Serialize.v says. *)
From Coq Require Import List NArith ZArith Bool String Arith Lia.
From Verif Require Import PyStr Values Schema Parse Serialize Basics Heap SpecHeap HeapFacts DenFacts CopyFacts HeapRefine HeapDict HeapDictFacts.
Import ListNotations.
Open Scope string_scope.
Open Scope list_scope.
Open Scope nat_scope.

Definition same {B} (Q : store -> B -> hval -> Prop) (r : res B) (out : heap * list warning * out hval) : Prop :=
  match r with
  | Ok b => exists h' y, out = (h', [], Val y) /\ Q (nth_error h') b y
  | Err e => exists h', out = (h', [], Exc e)
  end.
Lemma mapM_cons {A B} (f : A -> res B) a l : mapM f (a :: l) = do b <- f a; do bs <- mapM f l; Ok (b :: bs).
Proof. reflexivity. Qed.
Lemma hmap_cons {A B} (f : A -> H B) a l : hmap f (a :: l) = let! b <- f a; let! bs <- hmap f l; hret (b :: bs).
Proof. reflexivity. Qed.

Section Map.
  Context {A B : Type} (R : store -> A -> hval -> Prop) (Q : store -> B -> hval -> Prop) (p : hval -> H hval) (q : A -> res B).
  Hypothesis R_mono : forall g g' n x, sub g g' -> R g n x -> R g' n x.
  Hypothesis Q_mono : forall g g' n x, sub g g' -> Q g n x -> Q g' n x.
  Hypothesis HP : well_behaved p.
  Lemma hmap_sim : forall ns, (forall n, In n ns -> forall h x, R (nth_error h) n x -> same Q (q n) (p x h)) ->
    forall xs h, all2 (R (nth_error h)) ns xs ->
    match mapM q ns with
    | Ok bs => exists h' ys, hmap p xs h = (h', [], Val ys) /\ grows h h' /\ all2 (Q (nth_error h')) bs ys
    | Err e => exists h', hmap p xs h = (h', [], Exc e)
    end.
  Proof using R_mono Q_mono HP.
    induction ns as [|n ns IH]; intros HQ [|x xs] h HV; try (destruct HV; fail).
    - exists h, []. split; [reflexivity|]. split; [apply grows_refl|exact I].
    - destruct HV as [HV1 HV2]. rewrite mapM_cons, hmap_cons. pose proof (HQ n (or_introl eq_refl) h x HV1) as HX.
      unfold hbind. destruct (q n) as [b|e]; cbn [rbind].
      + destruct HX as (h1 & y & E1 & R1). rewrite E1. destruct (wb_use p h x _ _ _ HP E1) as (G1 & _ & _).
        specialize (IH (fun u Hu => HQ u (or_intror Hu)) xs h1).
        destruct (mapM q ns) as [bs|e]; cbn [rbind].
        * destruct IH as (h2 & ys & E2 & G2 & A2).
          { eapply all2_impl; [|exact HV2]. intros u z _ _ HZ. eapply R_mono; [apply grows_sub, G1|exact HZ]. }
          rewrite E2. cbn. exists h2, (y :: ys). split; [reflexivity|]. split; [eapply grows_trans; eauto|].
          cbn. split; [|exact A2]. eapply Q_mono; [apply grows_sub, G2|exact R1].
        * destruct IH as (h2 & E2).
          { eapply all2_impl; [|exact HV2]. intros u z _ _ HZ. eapply R_mono; [apply grows_sub, G1|exact HZ]. }
          rewrite E2. exists h2. reflexivity.
      + destruct HX as (h1 & E1). rewrite E1. exists h1. reflexivity.
  Qed.
End Map.
Lemma mapM_ok {A} (l : list A) : mapM (fun a => Ok a) l = Ok l.
Proof. induction l as [|a l IH]; [reflexivity|]. rewrite mapM_cons. cbn [rbind]. rewrite IH. reflexivity. Qed.

(** ---------------------------------------------------------------- finite references *)
Fixpoint fin (g : store) (n : nat) (x : hval) {struct n} : Prop :=
  match x with
  | Ref a => match n with O => False | S m => exists o, g a = Some o /\ Forall (fin g m) (items_of o) end
  | _ => True
  end.
Lemma fin_imm g n x : (forall a, x <> Ref a) -> fin g n x.
Proof. destruct x; intros H; try (destruct n; exact I). now destruct (H a). Qed.
Lemma fin_mono g g' : sub g g' -> forall n x, fin g n x -> fin g' n x.
Proof.
  intros HG. induction n as [|n IH]; intros x; destruct x; cbn [fin]; auto. intros (o & H1 & H2). exists o. split; [now apply HG|].
  eapply Forall_impl; [|exact H2]. exact IH.
Qed.
Lemma fin_le g : forall n m x, n <= m -> fin g n x -> fin g m x.
Proof.
  induction n as [|n IH]; intros m x HL HF; [destruct x; try (now apply fin_imm; intros a; discriminate); destruct HF|].
  destruct m as [|m]; [lia|]. destruct x; cbn [fin] in *; auto. destruct HF as (o & H1 & H2). exists o. split; [exact H1|].
  eapply Forall_impl; [|exact H2]. intros y. apply IH. lia.
Qed.
Lemma all2_right {A B} (R : A -> B -> Prop) (P : B -> Prop) l m : (forall a b, In a l -> R a b -> P b) -> all2 R l m -> Forall P m.
Proof.
  revert m. induction l as [|a l IH]; intros [|b m] H; cbn; try tauto; [constructor|]. intros [H1 H2]. constructor; [eapply H; cbn; eauto|].
  apply IH; [|exact H2]. intros x y Hx. apply H. now right.
Qed.
Lemma edges_fin g n d fs : (forall k y, In (k, y) d -> forall x, den g y x -> fin g n x) -> all2 (edge g) d fs -> Forall (fin g n) (map snd fs).
Proof.
  intros HD HE. rewrite Forall_map. eapply all2_right; [|exact HE]. intros [k y] [k' x] HI [_ HX]. cbn in *. eapply HD; eauto.
Qed.
Lemma den_fin g : forall v x, den g v x -> fin g (size v) x.
Proof.
  induction v as [|b|z|f|y| |l IH|d IH] using value_ind'; intros x HV; try (cbn in HV; subst x; exact I).
  - destruct HV as (a & m & -> & HA & H). cbn [size fin]. exists (OList m). split; [exact HA|]. cbn [items_of].
    eapply all2_right; [|exact H]. intros v z Hv HZ. rewrite Forall_forall in IH. eapply fin_le; [|apply (IH v Hv), HZ]. now apply sum_with_In.
  - destruct HV as (a & m & -> & HA & H). cbn [size fin]. exists (ODict m). split; [exact HA|]. cbn [items_of].
    eapply edges_fin; [|exact H]. intros k y Hy x HX. rewrite Forall_forall in IH. eapply fin_le; [|apply (IH _ Hy), HX].
    apply (sum_with_In (fun e => match e with (_, y) => size y end) d (k, y) Hy).
Qed.
Lemma den_attrs_fin g l x : den_attrs g l x -> fin g (attrs_size (AObj l)) x.
Proof.
  intros (a & fs & -> & HA & H). cbn [attrs_size fin]. eexists. split; [exact HA|]. cbn [items_of]. eapply edges_fin; [|exact H].
  intros k y Hy z HX. eapply fin_le; [|apply den_fin, HX]. apply (sum_with_In (fun e => match e with (_, y) => size y end) l (k, y) Hy).
Qed.

(** What is known about one field of an instance: its value, or that it is finite and not OPT. *)
Inductive item := DV (v : value) | DF (n : nat) | DA (l : list (str * value)).
Definition den_in (g : store) (i : item) (x : hval) : Prop :=
  match i with DV v => den g v x | DF n => fin g n x /\ x <> HOpt | DA l => den_attrs g l x end.
Definition den_out (g : store) (i : item) (y : hval) : Prop :=
  match i with DV v => den g v y | DF n => y <> HOpt | DA l => den g (VDict l) y end.
Definition isize (i : item) : nat := match i with DV v => size v | DF n => n | DA l => attrs_size (AObj l) end.
Definition edge_of (R : store -> item -> hval -> Prop) (g : store) : str * item -> str * hval -> Prop :=
  fun e f => match e with (k, i) => k = fst f /\ R g i (snd f) end.
Lemma den_in_mono g g' i x : sub g g' -> den_in g i x -> den_in g' i x.
Proof. intros HG. destruct i as [v|n|l]; cbn [den_in]; [now apply den_mono| |now apply den_attrs_mono]. intros [H1 H2]. split; [eapply fin_mono; eauto|exact H2]. Qed.
Lemma den_out_mono g g' i x : sub g g' -> den_out g i x -> den_out g' i x.
Proof. intros HG. destruct i as [v|n|l]; cbn [den_out]; [now apply den_mono|auto|now apply den_mono]. Qed.
Lemma den_in_fin g i x : den_in g i x -> fin g (isize i) x.
Proof. destruct i as [v|n|l]; cbn [den_in isize]; [apply den_fin|tauto|apply den_attrs_fin]. Qed.

(** dataclasses.asdict *)
Lemma asdict_fin f : forall x h, fin (nth_error h) f x -> exists h' y, h_asdict f x h = (h', [], Val y) /\ (x <> HOpt -> y <> HOpt).
Proof.
  induction f as [|f IH]; intros x h HF.
  - destruct x; try (eexists _, _; split; [reflexivity|auto; fail]). destruct HF.
  - destruct x as [| | | | | |a]; try (eexists _, _; split; [reflexivity|auto; fail]). destruct HF as (o & HO & HI).
    cbn [h_asdict]. unfold hbind at 1, get_obj. rewrite HO.
    assert (HM : forall l, Forall (fin (nth_error h) f) l -> exists h1 ys, hmap (h_asdict f) l h = (h1, [], Val ys)).
    { intros l HL. pose proof (hmap_sim (fun g (_ : unit) x => fin g f x) (fun _ (_ : unit) _ => True) (h_asdict f) (fun u => Ok u)
        (fun g g' _ x HG => fin_mono g g' HG f x) (fun _ _ _ _ _ _ => I) (asdict_wb f) (map (fun _ => tt) l)) as HS.
      rewrite mapM_ok in HS. destruct (HS) with (xs := l) (h := h) as (h1 & ys & E & _ & _); [| |eauto].
      - intros u _ h0 x HX. cbn. destruct (IH x h0 HX) as (h' & y & E & _). eauto.
      - clear -HL. induction HL; cbn; auto. }
    destruct o as [l|d|t d]; cbn [items_of] in HI; destruct (HM _ HI) as (h1 & ys & E1); cbn beta iota; unfold hbind; rewrite E1;
      (eexists _, _; split; [reflexivity|discriminate]).
Qed.
Lemma asdict_value f : forall v x h, den (nth_error h) v x -> size v <= f -> same den (Ok v) (h_asdict f x h).
Proof.
  induction f as [|f IH]; intros v x h HV HS; [pose proof (size_pos v); lia|].
  assert (HM : forall vs l, (forall v, In v vs -> size v <= f) -> all2 (den (nth_error h)) vs l ->
    exists h1 ys, hmap (h_asdict f) l h = (h1, [], Val ys) /\ grows h h1 /\ all2 (den (nth_error h1)) vs ys).
  { intros vs l HL HD. pose proof (hmap_sim den den (h_asdict f) (fun u => Ok u)
        (fun g g' v x HG => den_mono g g' HG v x) (fun g g' v x HG => den_mono g g' HG v x) (asdict_wb f) vs) as HM.
    rewrite mapM_ok in HM. apply HM; [|exact HD]. intros u Hu h0 y HY. apply IH; [exact HY|now apply HL]. }
  destruct v as [|b|z|fl|y|vs|vs|]; try (cbn in HV; subst x; exists h; eexists; split; [reflexivity|reflexivity]).
  - destruct HV as (a & l & -> & HA & HD). destruct (HM vs l) as (h1 & ys & E1 & G1 & A1); [|exact HD|].
    { intros u Hu. pose proof (size_list vs u Hu). lia. }
    cbn [h_asdict]. unfold hbind, get_obj, alloc, hret. rewrite HA, E1. eexists _, _. split; [reflexivity|].
    exists (List.length h1), ys. split; [reflexivity|]. split; [rewrite nth_error_snoc, Nat.eqb_refl; reflexivity|].
    eapply all2_impl; [|exact A1]. intros u z _ _. apply den_mono, grows_sub, grows_snoc.
  - destruct HV as (a & d & -> & HA & HD). change (all2 (edge (nth_error h)) vs d) in HD.
    destruct (HM (map snd vs) (map snd d)) as (h1 & ys & E1 & G1 & A1); [|now apply all2_map_snd|].
    { intros u Hu. apply in_map_iff in Hu as ([k u'] & <- & Hu). pose proof (size_dict vs k u' Hu). cbn [snd]. lia. }
    cbn [h_asdict]. unfold hbind, get_obj, alloc, hret. rewrite HA, E1. eexists _, _. split; [reflexivity|].
    eexists (List.length h1), _. split; [reflexivity|]. split; [rewrite nth_error_snoc, Nat.eqb_refl; reflexivity|].
    apply (all2_combine (nth_error h)); [exact HD|]. eapply all2_impl; [|exact A1]. intros u z _ _. apply den_mono, grows_sub, grows_snoc.
Qed.
Lemma asdict_attrs f l x h : den_attrs (nth_error h) l x -> attrs_size (AObj l) <= f -> same den (Ok (VDict l)) (h_asdict f x h).
Proof.
  intros (a & d & -> & HA & HD) HS. destruct f as [|f]; [cbn in HS; lia|]. cbn [attrs_size] in HS.
  change (all2 (edge (nth_error h)) l d) in HD.
  pose proof (hmap_sim den den (h_asdict f) (fun u => Ok u)
        (fun g g' v x HG => den_mono g g' HG v x) (fun g g' v x HG => den_mono g g' HG v x) (asdict_wb f) (map snd l)) as HM.
  rewrite mapM_ok in HM. destruct (HM) with (xs := map snd d) (h := h) as (h1 & ys & E1 & G1 & A1).
  { intros u Hu h0 y HY. apply asdict_value; [exact HY|]. apply in_map_iff in Hu as ([k u'] & <- & Hu).
    pose proof (sum_with_In (fun e => match e with (_, y) => size y end) l (k, u') Hu). cbn in *. lia. }
  { now apply all2_map_snd. }
  cbn [h_asdict]. unfold hbind, get_obj, alloc, hret. rewrite HA, E1. eexists _, _. split; [reflexivity|].
  eexists (List.length h1), _. split; [reflexivity|]. split; [rewrite nth_error_snoc, Nat.eqb_refl; reflexivity|].
  apply (all2_combine (nth_error h)); [exact HD|]. eapply all2_impl; [|exact A1]. intros u z _ _. apply den_mono, grows_sub, grows_snoc.
Qed.
Lemma asdict_item f i x h : den_in (nth_error h) i x -> isize i <= f -> same den_out (Ok i) (h_asdict f x h).
Proof.
  destruct i as [v|n|l]; cbn [isize den_in]; intros HI HS; [exact (asdict_value f v x h HI HS)| |exact (asdict_attrs f l x h HI HS)].
  - destruct HI as [HI HN]. destruct (asdict_fin f x h) as (h' & y & E & HY); [eapply fin_le; eauto|]. exists h', y. split; [exact E|]. cbn. auto.
Qed.

(** asdict of an instance whose fields are described by [L]. *)
Lemma edge_map_snd R g L fs : all2 (edge_of R g) L fs -> all2 (R g) (map snd L) (map snd fs).
Proof. revert fs. induction L as [|[k i] L IH]; intros [|[k' x] fs]; cbn; try tauto. intros [[_ H] H2]. auto. Qed.
Lemma edge_combine R R' g g' L fs ys : all2 (edge_of R g) L fs -> all2 (R' g') (map snd L) ys -> all2 (edge_of R' g') L (combine (map fst fs) ys).
Proof. revert fs ys. induction L as [|[k i] L IH]; intros [|[k' x] fs] [|y ys]; cbn; try tauto. intros [[H _] H2] [H3 H4]. auto. Qed.
Lemma asdict_inst f a t fs L h : nth_error h a = Some (OInst t fs) -> all2 (edge_of den_in (nth_error h)) L fs ->
  (forall k i, In (k, i) L -> isize i <= f) ->
  exists h' d, h_asdict (S f) (Ref a) h = (h', [], Val (Ref (List.length h' - 1))) /\ grows h h' /\ List.length h <= List.length h' - 1 /\
    nth_error h' (List.length h' - 1) = Some (ODict d) /\ all2 (edge_of den_out (hide (nth_error h') [List.length h' - 1])) L d.
Proof.
  intros HA HD HS. pose proof (hmap_sim den_in den_out (h_asdict f) (fun u => Ok u) den_in_mono den_out_mono (asdict_wb f) (map snd L)) as HM.
  rewrite mapM_ok in HM. destruct (HM) with (xs := map snd fs) (h := h) as (h1 & ys & E1 & G1 & A1).
  { intros i Hi h0 x HX. apply in_map_iff in Hi as ([k i'] & <- & Hi). apply asdict_item; [exact HX|]. eapply HS, Hi. }
  { now apply edge_map_snd. }
  cbn [h_asdict]. unfold hbind, get_obj, alloc, hret. rewrite HA, E1. eexists (h1 ++ [_]), _. rewrite app_length. cbn [List.length].
  replace (List.length h1 + 1 - 1) with (List.length h1) by lia. split; [reflexivity|].
  split; [eapply grows_trans; [exact G1|apply grows_snoc]|]. split; [destruct G1; lia|].
  split; [rewrite nth_error_snoc, Nat.eqb_refl; reflexivity|].
  eapply edge_combine; [exact HD|]. eapply all2_impl; [|exact A1]. intros i y _ _. apply den_out_mono.
  intros c o HC. apply hide_spec. pose proof (nth_lt _ _ _ HC). split; [intros [E|[]]; lia|]. rewrite nth_error_app1 by lia. exact HC.
Qed.

(** remove_optional *)
Lemma remove_sim g d e : all2 (edge g) d e -> all2 (edge g) (remove_optional d) (filter (fun e => negb (is_hopt (snd e))) e).
Proof.
  unfold remove_optional. revert e. induction d as [|[k y] d IH]; intros [|[k' x] e]; cbn [all2 filter]; try tauto.
  intros [[HK HY] H2]. cbn [fst snd] in *. assert (HE : is_hopt x = is_opt y).
  { destruct y; cbn in HY; try (subst x; reflexivity); destruct HY as (a & m & -> & _); reflexivity. }
  rewrite HE. destruct (is_opt y); cbn [negb]; [now apply IH|]. cbn [all2]. split; [split; assumption|now apply IH].
Qed.
Lemma remove_run h r d L : nth_error h r = Some (ODict d) -> all2 (edge (hide (nth_error h) [r])) L d ->
  same den (Ok (VDict (remove_optional L))) (h_remove_optional (Ref r) h).
Proof.
  intros HR HD. unfold h_remove_optional, hbind, get_obj, alloc, hret. rewrite HR. eexists _, _. split; [reflexivity|].
  eexists (List.length h), _. split; [reflexivity|]. split; [rewrite nth_error_snoc, Nat.eqb_refl; reflexivity|].
  apply remove_sim. eapply all2_impl; [|exact HD]. intros e f _ _. apply edge_mono. eapply sub_trans; [apply hide_sub|apply grows_sub, grows_snoc].
Qed.

(** Fields of an instance, from lookups to a list. *)
Lemma edges_of_lookups (R : item -> hval -> Prop) L : forall fs, map fst fs = map fst L -> NoDup (map fst L) ->
  (forall k i, In (k, i) L -> exists x, lookup k fs = Some x /\ R i x) ->
  all2 (fun (e : str * item) (f : str * hval) => match e with (k, i) => k = fst f /\ R i (snd f) end) L fs.
Proof.
  induction L as [|[k i] L IH]; intros [|[k' x] fs] HK HN HL; try discriminate; [exact I|]. cbn [map fst] in *.
  injection HK as -> HK. apply NoDup_cons_iff in HN as [HN1 HN2]. cbn [all2 fst snd]. split.
  - split; [reflexivity|]. destruct (HL k i (or_introl eq_refl)) as (y & HY & HR). cbn [lookup] in HY. rewrite str_eqb_refl in HY. injection HY as ->. exact HR.
  - apply IH; [exact HK|exact HN2|]. intros k1 i1 HI. destruct (HL k1 i1 (or_intror HI)) as (y & HY & HR). exists y. split; [|exact HR].
    cbn [lookup] in HY. destruct (str_eqb k k1) eqn:E; [|exact HY]. apply str_eqb_eq in E. subst k1. exfalso. apply HN1.
    apply (in_map fst) in HI. exact HI.
Qed.
Definition opt_item (o : option value) (k : string) : list (str * item) := match o with Some v => [(s k, DV v)] | None => [] end.
Definition attrs_item (a : attrs) : list (str * item) :=
  match a with NoAttrs => [] | AOpt => [(s "attrs", DV VOpt)] | AObj l => [(s "attrs", DF (attrs_size (AObj l)))] end.
Definition slot_item {A} (f : A -> nat) (c : slot A) (k : string) : list (str * item) :=
  match c with NoField => [] | SOpt => [(s k, DV VOpt)] | Items l => [(s k, DF (slot_size f (Items l)))] | Raw v => [(s k, DF (size v))] end.
Definition node_items (n : node) : list (str * item) :=
  match n with
  | Node _ ty ve tx at_ co ma => [(s "type", DV ty)] ++ opt_item ve "version" ++ opt_item tx "text" ++ attrs_item at_ ++
                                 slot_item node_size co "content" ++ slot_item mark_size ma "marks"
  end.
Fixpoint nodupb (l : list str) : bool := match l with [] => true | k :: r => negb (existsb (str_eqb k) r) && nodupb r end.
Lemma nodupb_ok l : nodupb l = true -> NoDup l.
Proof.
  induction l as [|k r IH]; cbn; [constructor|]. intros H. apply andb_prop in H as [H1 H2]. constructor; [|auto].
  intros HI. apply Bool.negb_true_iff in H1. assert (existsb (str_eqb k) r = true); [|congruence].
  apply existsb_exists. exists k. split; [exact HI|apply str_eqb_refl].
Qed.
Lemma node_items_nodup n : NoDup (map fst (node_items n)).
Proof. apply nodupb_ok. destruct n as [k ty ve tx at_ co ma]. destruct ve, tx, at_, co, ma; reflexivity. Qed.
Lemma node_items_keys k ty ve tx at_ co ma : map fst (node_items (Node k ty ve tx at_ co ma)) =
  [s "type"] ++ if_some ve "version" ++ if_some tx "text" ++ if_attrs at_ ++ if_slot co "content" ++ if_slot ma "marks".
Proof. destruct ve, tx, at_, co, ma; reflexivity. Qed.

Lemma mark_fin g m x : den_mark g m x -> fin g (mark_size m) x.
Proof.
  intros (a & fs & -> & HA & HT & HR & HK). unfold mark_size. cbn [fin]. eexists. split; [exact HA|]. cbn [items_of].
  destruct HT as (t & HT & DT). destruct fs as [|[k0 x0] fs]; [discriminate|]. cbn [map fst app] in HK.
  assert (k0 = s "type") by congruence. subst k0. cbn [lookup] in HT. rewrite str_eqb_refl in HT. assert (x0 = t) by congruence. subst x0.
  cbn [map snd]. constructor; [eapply fin_le; [|apply den_fin, DT]; lia|]. destruct (m_attrs m) as [| |l]; cbn [if_attrs] in HK.
  - destruct fs; [constructor|discriminate].
  - destruct fs as [|[k1 x1] [|]]; try discriminate. cbn [map fst] in HK. assert (k1 = s "attrs") by congruence. subst k1. cbn [attrs_field_den lookup] in HR.
    change (str_eqb (s "type") (s "attrs")) with false in HR. cbn iota in HR. rewrite str_eqb_refl in HR. assert (x1 = HOpt) by congruence. subst x1.
    constructor; [|constructor]. apply fin_imm. discriminate.
  - destruct fs as [|[k1 x1] [|]]; try discriminate. cbn [map fst] in HK. assert (k1 = s "attrs") by congruence. subst k1. destruct HR as (x & HR & HX). cbn [lookup] in HR.
    change (str_eqb (s "type") (s "attrs")) with false in HR. cbn iota in HR. rewrite str_eqb_refl in HR. assert (x1 = x) by congruence. subst x1.
    constructor; [|constructor]. cbn [snd]. eapply fin_le; [|apply den_attrs_fin, HX]. lia.
Qed.

Lemma slot_in {A} g (R : A -> hval -> Prop) (f : A -> nat) (c : slot A) name o :
  (forall l, c = Items l -> forall a x, In a l -> R a x -> fin g (f a) x) -> slot_den g R c o ->
  forall k i, In (k, i) (slot_item f c name) -> k = s name /\ exists x, o = Some x /\ den_in g i x.
Proof.
  intros HR HS k i HI. destruct c as [| |l|v]; cbn [slot_item] in HI; try (destruct HI; fail); destruct HI as [HI|[]];
    (assert (k = s name) by congruence; split; [assumption|]).
  - assert (i = DV VOpt) by congruence. subst i. cbn in HS. exists HOpt. split; [exact HS|reflexivity].
  - assert (i = DF (slot_size f (Items l))) by congruence. subst i. destruct HS as (b & xs & H1 & H2 & H3). exists (Ref b).
    split; [exact H1|]. cbn [den_in slot_size fin]. split; [|discriminate]. exists (OList xs). split; [exact H2|]. cbn [items_of].
    eapply all2_right; [|exact H3]. intros a x Ha HX. eapply fin_le; [|eapply HR; eauto]. now apply sum_with_In.
  - assert (i = DF (size v)) by congruence. subst i. destruct HS as ([HO _] & x & H1 & H2). exists x. split; [exact H1|]. cbn [den_in].
    split; [now apply den_fin|]. intros ->. destruct v; cbn in H2; try discriminate; try (destruct H2 as (? & ? & ? & _); discriminate). now destruct HO.
Qed.
Lemma opt_in g o name r : field_den g o r -> forall k i, In (k, i) (opt_item o name) -> k = s name /\ exists x, r = Some x /\ den_in g i x.
Proof.
  intros HF k i HI. destruct o as [v|]; cbn [opt_item] in HI; [|destruct HI]. destruct HI as [HI|[]].
  assert (k = s name) by congruence. assert (i = DV v) by congruence. subst i. split; [assumption|]. exact HF.
Qed.
Lemma attrs_in g a r : attrs_field_den g a r -> forall k i, In (k, i) (attrs_item a) -> k = s "attrs" /\ exists x, r = Some x /\ den_in g i x.
Proof.
  intros HF k i HI. destruct a as [| |l]; cbn [attrs_item] in HI; [destruct HI| |]; destruct HI as [HI|[]];
    (assert (k = s "attrs") by congruence; split; [assumption|]).
  - assert (i = DV VOpt) by congruence. subst i. exists HOpt. split; [exact HF|reflexivity].
  - assert (i = DF (attrs_size (AObj l))) by congruence. subst i. destruct HF as (x & H1 & H2). exists x. split; [exact H1|].
    cbn [den_in]. split; [now apply den_attrs_fin|]. destruct H2 as (b & fs & -> & _). discriminate.
Qed.
Lemma node_edges_of g k ty ve tx at_ co ma fs :
  (forall l, co = Items l -> forall n x, In n l -> den_node g n x -> fin g (node_size n) x) ->
  field_den g (Some ty) (lookup (s "type") fs) -> field_den g ve (lookup (s "version") fs) -> field_den g tx (lookup (s "text") fs) ->
  attrs_field_den g at_ (lookup (s "attrs") fs) -> slot_den g (den_node g) co (lookup (s "content") fs) ->
  slot_den g (den_mark g) ma (lookup (s "marks") fs) ->
  map fst fs = [s "type"] ++ if_some ve "version" ++ if_some tx "text" ++ if_attrs at_ ++ if_slot co "content" ++ if_slot ma "marks" ->
  all2 (edge_of den_in g) (node_items (Node k ty ve tx at_ co ma)) fs.
Proof.
  intros HC H1 H2 H3 H4 H5 H6 HK. apply (edges_of_lookups (den_in g)).
  - now rewrite node_items_keys.
  - apply node_items_nodup.
  - intros key i HI. unfold node_items in HI. rewrite !in_app_iff in HI. destruct HI as [HI|[HI|[HI|[HI|[HI|HI]]]]].
    + apply (opt_in g (Some ty) "type" _ H1) in HI. destruct HI as [-> HI]. exact HI.
    + apply (opt_in g ve "version" _ H2) in HI. destruct HI as [-> HI]. exact HI.
    + apply (opt_in g tx "text" _ H3) in HI. destruct HI as [-> HI]. exact HI.
    + apply (attrs_in g at_ _ H4) in HI. destruct HI as [-> HI]. exact HI.
    + apply (slot_in g _ _ co "content" _ HC H5) in HI. destruct HI as [-> HI]. exact HI.
    + apply (slot_in g _ mark_size ma "marks" _ (fun _ _ m x _ => mark_fin g m x) H6) in HI. destruct HI as [-> HI]. exact HI.
Qed.
Lemma node_items_size n k i : In (k, i) (node_items n) -> isize i < node_size n.
Proof.
  destruct n as [kd ty ve tx at_ co ma]. unfold node_items. rewrite !in_app_iff. cbn [node_size].
  intros HI. destruct HI as [HI|[HI|[HI|[HI|[HI|HI]]]]].
  - destruct HI as [[= _ <-]|[]]. cbn [isize]. lia.
  - destruct ve; cbn [opt_item] in HI; try (now destruct HI); destruct HI as [[= _ <-]|[]]. cbn [isize opt_size]. lia.
  - destruct tx; cbn [opt_item] in HI; try (now destruct HI); destruct HI as [[= _ <-]|[]]. cbn [isize opt_size]. lia.
  - destruct at_; cbn [attrs_item] in HI; try (now destruct HI); destruct HI as [[= _ <-]|[]]; cbn [isize attrs_size size]; lia.
  - destruct co; cbn [slot_item] in HI; try (now destruct HI); destruct HI as [[= _ <-]|[]]; cbn [isize slot_size size]; lia.
  - destruct ma; cbn [slot_item] in HI; try (now destruct HI); destruct HI as [[= _ <-]|[]]; cbn [isize slot_size size]; lia.
Qed.
Lemma edges_in_fin g n L fs : (forall k i, In (k, i) L -> isize i <= n) -> all2 (edge_of den_in g) L fs -> Forall (fin g n) (map snd fs).
Proof.
  intros HL HE. rewrite Forall_map. eapply all2_right; [|exact HE]. intros [k i] [k' x] HI [_ HX]. cbn in *. eapply fin_le; [eapply HL, HI|].
  now apply den_in_fin.
Qed.
Lemma node_fin g : forall n x, den_node g n x -> fin g (node_size n) x.
Proof.
  induction n as [k ty ve tx at_ co ma IH] using node_ind'. intros x (a & fs & -> & HA & H1 & H2 & H3 & H4 & H5 & H6 & H7).
  assert (HE : all2 (edge_of den_in g) (node_items (Node k ty ve tx at_ co ma)) fs).
  { apply node_edges_of; auto. intros l -> n x Hn HX. cbn [on_items] in IH. rewrite Forall_forall in IH. now apply (IH n Hn). }
  pose proof (node_items_size (Node k ty ve tx at_ co ma)) as HS. destruct (node_size (Node k ty ve tx at_ co ma)) as [|n] eqn:EN; [discriminate|].
  cbn [fin]. eexists. split; [exact HA|]. cbn [items_of]. eapply edges_in_fin; [|exact HE]. intros key i HI. specialize (HS key i HI). lia.
Qed.

(** ---------------------------------------------------------------- to_dict *)
Definition all_values (D : list (str * value)) : list (str * item) := map (fun e => (fst e, DV (snd e))) D.
Lemma all_values_out g D d : all2 (edge_of den_out g) (all_values D) d -> all2 (edge g) D d.
Proof. revert d. induction D as [|[k v] D IH]; intros [|e d]; cbn; try tauto. intros [H1 H2]. auto. Qed.
Lemma all_values_in g D d : all2 (edge g) D d -> all2 (edge_of den_in g) (all_values D) d.
Proof. revert d. induction D as [|[k v] D IH]; intros [|e d]; cbn; try tauto. intros [H1 H2]. auto. Qed.
Lemma attrs_to_dict_sim f l x h : den_attrs (nth_error h) l x -> attrs_size (AObj l) < f ->
  same den (Ok (attrs_to_dict l)) (h_to_dict f x h).
Proof.
  intros (a & fs & -> & HA & HD) HF. cbn [attrs_size] in HF. destruct f as [|[|f]]; [lia|lia|]. cbn [h_to_dict].
  destruct (asdict_inst f a TAttrs fs (all_values l) h HA) as (h1 & d & E1 & G1 & L1 & N1 & A1).
  { now apply all_values_in. }
  { intros k i HI. apply in_map_iff in HI as ([k' v] & [= <- <-] & HI). cbn [isize snd].
    pose proof (sum_with_In (fun e => match e with (_, y) => size y end) l (k', v) HI). cbn in *. lia. }
  unfold hbind, get_obj at 1. rewrite HA. cbn iota. rewrite E1. apply all_values_out in A1.
  pose proof (remove_run h1 _ d l N1 A1) as (h2 & y & E2 & D2). rewrite E2. exists h2, y. split; [reflexivity|exact D2].
Qed.
Lemma mark_to_dict_sim f m x h : den_mark (nth_error h) m x -> mark_size m < f -> same den (Ok (mark_to_dict m)) (h_to_dict f x h).
Proof.
  intros (a & fs & -> & HA & HT & HR & HK) HF. unfold mark_size in HF. destruct f as [|[|f]]; [lia|lia|]. cbn [h_to_dict].
  set (L := (s "type", DV (m_type m)) :: match m_attrs m with NoAttrs => [] | AOpt => [(s "attrs", DV VOpt)] | AObj l => [(s "attrs", DA l)] end).
  destruct (asdict_inst f a (TMark (m_kind m)) fs L h HA) as (h1 & d & E1 & G1 & L1 & N1 & A1).
  { apply (edges_of_lookups (den_in (nth_error h))).
    - rewrite HK. unfold L. now destruct (m_attrs m).
    - apply nodupb_ok. unfold L. now destruct (m_attrs m).
    - intros k i HI. destruct HI as [HI|HI].
      + assert (k = s "type") by congruence. assert (i = DV (m_type m)) by congruence. subst. exact HT.
      + destruct (m_attrs m) as [| |l]; [destruct HI| |]; destruct HI as [HI|[]].
        * assert (k = s "attrs") by congruence. assert (i = DV VOpt) by congruence. subst. exists HOpt. split; [exact HR|reflexivity].
        * assert (k = s "attrs") by congruence. assert (i = DA l) by congruence. subst. exact HR. }
  { intros k i HI. destruct HI as [HI|HI].
    - assert (i = DV (m_type m)) by congruence. subst. cbn [isize]. lia.
    - destruct (m_attrs m) as [| |l]; [destruct HI| |]; destruct HI as [HI|[]].
      + assert (i = DV VOpt) by congruence. subst. cbn [isize size]. pose proof (size_pos (m_type m)). lia.
      + assert (i = DA l) by congruence. subst. cbn [isize]. lia. }
  unfold hbind, get_obj at 1. rewrite HA. cbn iota. rewrite E1.
  pose proof (remove_run h1 _ d ((s "type", m_type m) :: match m_attrs m with NoAttrs => [] | AOpt => [(s "attrs", VOpt)] | AObj l => [(s "attrs", VDict l)] end) N1) as HX.
  destruct HX as (h2 & y & E2 & D2).
  { unfold L in A1. destruct (m_attrs m) as [| |l]; exact A1. }
  rewrite E2. exists h2, y. split; [reflexivity|exact D2].
Qed.

(** The local dictionary [data], at [r]. *)
Definition data (h0 : heap) (r : addr) (L : list (str * item)) (h : heap) : Prop :=
  List.length h0 <= r /\ grows h0 h /\ exists d, nth_error h r = Some (ODict d) /\ all2 (edge_of den_out (hide (nth_error h) [r])) L d.
Lemma edges_put (R : store -> item -> hval -> Prop) g g' k v x L d : (forall i y, R g i y -> R g' i y) -> R g' v x -> all2 (edge_of R g) L d -> all2 (edge_of R g') (put k v L) (put k x d).
Proof.
  intros HM HV. assert (HA : forall L d, all2 (edge_of R g) L d -> all2 (edge_of R g') L d).
  { clear -HM. induction L as [|[k i] L IH]; intros [|e d]; cbn; try tauto. intros [[H1 H2] H3]. auto. }
  revert d. induction L as [|[k' i] L IH]; intros [|[k1 y] d]; cbn [all2 put]; try tauto; [cbn; auto|].
  intros [[H1 H2] H3]. cbn [fst snd] in *. subst k1. destruct (str_eqb k' k); cbn [all2]; (split; [split; cbn; auto|auto]).
Qed.
Lemma data_set h0 r L h h1 k v x : data h0 r L h -> grows h h1 -> den (hide (nth_error h1) [r]) v x ->
  exists h2, setitem r k x h1 = (h2, [], Val tt) /\ data h0 r (put k (DV v) L) h2.
Proof.
  intros (HL & HG & d & HN & HD) G1 HX. destruct (setitem_run r h1 d k x) as (E2 & N2 & S2); [now apply (grows_sub h)|].
  eexists. split; [exact E2|]. split; [exact HL|]. split.
  { destruct HG as [LG HG]. destruct G1 as [L1 G1]. destruct S2 as [LS S2]. split; [lia|]. intros c Hc. rewrite S2 by lia. rewrite G1 by lia. now apply HG. }
  eexists. split; [exact N2|]. eapply edges_put; [| |exact HD].
  - intros i y. apply den_out_mono. eapply sub_trans; [apply step_sub, grows_step, G1|apply step_sub, S2].
  - cbn [den_out]. eapply den_mono; [apply step_sub, S2|exact HX].
Qed.
Lemma fresh_avoids p h x h1 lg y r v : well_behaved p -> r < List.length h -> p x h = (h1, lg, Val y) -> den (nth_error h1) v y -> den (hide (nth_error h1) [r]) v y.
Proof.
  intros HP HR HE HD. destruct (wb_use p h x _ _ _ HP HE) as (_ & S1 & F1). specialize (F1 y eq_refl).
  eapply den_mono; [apply above_sub, HR|]. eapply den_from; [apply from_above; eassumption|exact HD].
Qed.
Lemma edge_lookup R g L d k : all2 (edge_of R g) L d ->
  match lookup k L with Some i => exists y, lookup k d = Some y /\ R g i y | None => lookup k d = None end.
Proof.
  revert d. induction L as [|[k1 i] L IH]; intros [|[k2 y] d]; cbn [all2 lookup]; try tauto. intros [[H1 H2] H3]. cbn [fst snd] in *. subst k2.
  destruct (str_eqb k1 k); [eauto|]. now apply IH.
Qed.

Definition slot_dicts {A} (q : A -> res value) (c : slot A) : res (option (list value)) :=
  match c with
  | NoField | SOpt => Ok None
  | Items l => do xs <- mapM q l; Ok (Some xs)
  | Raw v => do xs <- raw_to_dicts v; Ok (Some xs)
  end.
Definition h_slot (f : nat) (r : addr) (key : str) (e : option hval) (x : option hval) : H unit :=
  match e, x with
  | None, _ | Some HOpt, _ | _, None => hret tt
  | Some _, Some c => let! l <- h_iter c; let! xs <- hmap (h_to_dict f) l; let! b <- alloc (OList xs); setitem r key (Ref b)
  end.
Definition put_opt (key : str) (o : option (list value)) (L : list (str * item)) : list (str * item) :=
  match o with Some l => put key (DV (VList l)) L | None => L end.
Lemma slot_step {A} (R : store -> A -> hval -> Prop) (q : A -> res value) f h0 r L h key (c : slot A) e x :
  (forall g g' n x, sub g g' -> R g n x -> R g' n x) -> 0 < f ->
  (forall l, c = Items l -> forall n, In n l -> forall h x, R (nth_error h) n x -> same den (q n) (h_to_dict f x h)) ->
  slot_den (nth_error h0) (R (nth_error h0)) c x ->
  match c with NoField => e = None | SOpt => e = Some HOpt | _ => exists y, e = Some y /\ y <> HOpt end ->
  data h0 r L h ->
  match slot_dicts q c with
  | Ok o => exists h', h_slot f r key e x h = (h', [], Val tt) /\ data h0 r (put_opt key o L) h'
  | Err ex => exists h', h_slot f r key e x h = (h', [], Exc ex)
  end.
Proof.
  intros RM HF HQ HS HE HD. assert (HR : r < List.length h). { destruct HD as (_ & _ & d & HN & _). eapply nth_lt; eauto. }
  assert (HG : grows h0 h) by apply HD. unfold h_slot.
  destruct c as [| |l|v]; cbn [slot_dicts] in *.
  - subst e. exists h. split; [reflexivity|exact HD].
  - subst e. exists h. split; [reflexivity|exact HD].
  - destruct HE as (y & -> & HY). destruct HS as (b & xs & -> & HB & HX).
    assert (HM : match mapM q l with
      | Ok bs => exists h' ys, hmap (h_to_dict f) xs h = (h', [], Val ys) /\ grows h h' /\ all2 (den (hide (nth_error h') [r])) bs ys
      | Err e => exists h', hmap (h_to_dict f) xs h = (h', [], Exc e) end).
    { assert (HX1 : all2 (R (nth_error h)) l xs). { eapply all2_impl; [|exact HX]. intros n z _ _. apply RM, grows_sub, HG. }
      specialize (HQ l eq_refl). clear -RM HQ HX1 HR.
      revert xs h HR HX1. induction l as [|n l IH]; intros [|x xs] h HR HX1; try (destruct HX1; fail).
      - exists h, []. split; [reflexivity|]. split; [apply grows_refl|exact I].
      - destruct HX1 as [H1 H2]. rewrite mapM_cons, hmap_cons. pose proof (HQ n (or_introl eq_refl) h x H1) as HX. unfold hbind.
        destruct (q n) as [v|e]; cbn [rbind].
        + destruct HX as (h1 & y & E1 & D1). rewrite E1. destruct (wb_use _ h x _ _ _ (to_dict_wb f) E1) as (G1 & _ & _).
          pose proof (fresh_avoids _ _ _ _ _ _ r v (to_dict_wb f) HR E1 D1) as D2.
          specialize (IH (fun u Hu => HQ u (or_intror Hu)) xs h1 ltac:(destruct G1; lia)).
          assert (H3 : all2 (R (nth_error h1)) l xs). { eapply all2_impl; [|exact H2]. intros u z _ _. apply RM, grows_sub, G1. }
          specialize (IH H3). destruct (mapM q l) as [bs|e]; cbn [rbind].
          * destruct IH as (h2 & ys & E2 & G2 & A2). rewrite E2. exists h2, (y :: ys). split; [reflexivity|]. split; [eapply grows_trans; eauto|].
            split; [|exact A2]. eapply den_mono; [apply step_sub, grows_step, G2|exact D2].
          * destruct IH as (h2 & E2). rewrite E2. exists h2. reflexivity.
        + destruct HX as (h1 & E1). rewrite E1. exists h1. reflexivity. }
    assert (HI : h_iter (Ref b) h = (h, [], Val xs)). { unfold h_iter, hbind, get_obj. rewrite (proj2 HG) by (eapply nth_lt; eauto). rewrite HB. reflexivity. }
    assert (HGOAL : match (do xs0 <- mapM q l; Ok (Some xs0)) with
      | Ok o => exists h', (let! l0 <- h_iter (Ref b); let! ys <- hmap (h_to_dict f) l0; let! b0 <- alloc (OList ys); setitem r key (Ref b0)) h = (h', [], Val tt) /\ data h0 r (put_opt key o L) h'
      | Err ex => exists h', (let! l0 <- h_iter (Ref b); let! ys <- hmap (h_to_dict f) l0; let! b0 <- alloc (OList ys); setitem r key (Ref b0)) h = (h', [], Exc ex)
      end).
    { unfold hbind. rewrite HI. destruct (mapM q l) as [bs|ex]; cbn [rbind].
      - destruct HM as (h1 & ys & E1 & G1 & A1). rewrite E1. cbn beta iota delta [alloc].
        destruct (data_set h0 r L h (h1 ++ [OList ys]) key (VList bs) (Ref (List.length h1)) HD) as (h2 & E2 & D2).
        { eapply grows_trans; [exact G1|apply grows_snoc]. }
        { exists (List.length h1), ys. split; [reflexivity|]. split.
          - apply hide_spec. split; [intros [E|[]]; destruct G1; lia|]. rewrite nth_error_snoc, Nat.eqb_refl. reflexivity.
          - eapply all2_impl; [|exact A1]. intros u z _ _. apply den_mono, step_sub, grows_step, grows_snoc. }
        rewrite E2. exists h2. split; [reflexivity|exact D2].
      - destruct HM as (h1 & E1). rewrite E1. exists h1. reflexivity. }
    destruct y; try exact HGOAL. now destruct HY.
  - destruct HE as (y & -> & HY). destruct HS as ([HO HN] & z & -> & HZ).
    assert (HGOAL : match (do xs0 <- raw_to_dicts v; Ok (Some xs0)) with
      | Ok o => exists h', (let! l0 <- h_iter z; let! ys <- hmap (h_to_dict f) l0; let! b0 <- alloc (OList ys); setitem r key (Ref b0)) h = (h', [], Val tt) /\ data h0 r (put_opt key o L) h'
      | Err ex => exists h', (let! l0 <- h_iter z; let! ys <- hmap (h_to_dict f) l0; let! b0 <- alloc (OList ys); setitem r key (Ref b0)) h = (h', [], Exc ex)
      end).
    { assert (HNIL : h_iter z h = (h, [], Val []) -> exists h', (let! l0 <- h_iter z; let! ys <- hmap (h_to_dict f) l0; let! b0 <- alloc (OList ys); setitem r key (Ref b0)) h = (h', [], Val tt) /\ data h0 r (put_opt key (Some []) L) h').
      { intros HI. unfold hbind. rewrite HI. cbn beta iota delta [hmap hret alloc].
        destruct (data_set h0 r L h (h ++ [OList []]) key (VList []) (Ref (List.length h)) HD) as (h2 & E2 & D2); [apply grows_snoc| |].
        { exists (List.length h), []. split; [reflexivity|]. split; [|exact I].
          apply hide_spec. split; [intros [E|[]]; lia|]. rewrite nth_error_snoc, Nat.eqb_refl. reflexivity. }
        rewrite E2. exists h2. split; [reflexivity|exact D2]. }
      assert (HSTR : forall y l, h_iter z h = (h, [], Val (HStr y :: l)) -> exists h', (let! l0 <- h_iter z; let! ys <- hmap (h_to_dict f) l0; let! b0 <- alloc (OList ys); setitem r key (Ref b0)) h = (h', [], Exc AttributeError)).
      { intros u l HI. unfold hbind. rewrite HI. rewrite hmap_cons. destruct f as [|f']; [lia|]. cbn [h_to_dict]. exists h. reflexivity. }
      destruct v as [|b|i|fl|u|vs|vs|]; try (cbn in HZ; subst z; exists h; reflexivity).
      - cbn in HZ. subst z. destruct u as [|c u]; cbn [raw_to_dicts rbind]; [apply HNIL; reflexivity|eapply HSTR; reflexivity].
      - now destruct (HN vs).
      - destruct HZ as (a & d & -> & HA & HZ).
        assert (HI : h_iter (Ref a) h = (h, [], Val (map (fun e => HStr (fst e)) d))).
        { unfold h_iter, hbind, get_obj. rewrite (proj2 HG) by (eapply nth_lt; eauto). rewrite HA. reflexivity. }
        destruct vs as [|e vs], d as [|e' d]; try (destruct HZ; fail); cbn [raw_to_dicts rbind]; [apply HNIL; exact HI|eapply HSTR; exact HI]. }
    destruct y; try exact HGOAL. now destruct HY.
Qed.

Lemma lookup_content k ty ve tx at_ co ma : lookup (s "content") (node_items (Node k ty ve tx at_ co ma)) =
  match slot_item node_size co "content" with [] => None | (_, i) :: _ => Some i end.
Proof. destruct ve, tx, at_, co, ma; reflexivity. Qed.
Lemma lookup_marks k ty ve tx at_ co ma : lookup (s "marks") (node_items (Node k ty ve tx at_ co ma)) =
  match slot_item mark_size ma "marks" with [] => None | (_, i) :: _ => Some i end.
Proof. destruct ve, tx, at_, co, ma; reflexivity. Qed.
Lemma lookup_attrs k ty ve tx at_ co ma : lookup (s "attrs") (node_items (Node k ty ve tx at_ co ma)) =
  match attrs_item at_ with [] => None | (_, i) :: _ => Some i end.
Proof. destruct ve, tx, at_, co, ma; reflexivity. Qed.
Lemma slot_lookup {A} (f : A -> nat) (c : slot A) name g L d : all2 (edge_of den_out g) L d ->
  lookup (s name) L = match slot_item f c name with [] => None | (_, i) :: _ => Some i end ->
  match c with NoField => lookup (s name) d = None | SOpt => lookup (s name) d = Some HOpt | _ => exists y, lookup (s name) d = Some y /\ y <> HOpt end.
Proof.
  intros HD HL. pose proof (edge_lookup _ _ _ _ (s name) HD) as HE. rewrite HL in HE. destruct c as [| |l|v]; cbn [slot_item] in HE.
  - exact HE.
  - destruct HE as (y & HE & HY). cbn in HY. now subst y.
  - exact HE.
  - exact HE.
Qed.

Lemma mapM_pure {A B} (f : A -> B) l : mapM (fun a => Ok (f a)) l = Ok (map f l).
Proof. induction l as [|m l IHl]; [reflexivity|]. rewrite mapM_cons. cbn [rbind]. rewrite IHl. reflexivity. Qed.
Definition bare {A} (c : slot A) : bool := match c with NoField | SOpt => true | _ => false end.
Lemma slot_some {A} (q : A -> res value) c o : slot_dicts q c = Ok o -> (bare c = true /\ o = None) \/ (exists l, bare c = false /\ o = Some l).
Proof.
  destruct c as [| |l|v]; cbn [slot_dicts bare].
  - intros [= <-]. auto.
  - intros [= <-]. auto.
  - destruct (mapM q l); cbn; [|discriminate]. intros [= <-]. eauto.
  - destruct (raw_to_dicts v); cbn; [|discriminate]. intros [= <-]. eauto.
Qed.

Theorem to_dict_sim : forall f n x h, den_node (nth_error h) n x -> node_size n < f -> same den (node_to_dict n) (h_to_dict f x h).
Proof.
  induction f as [|f IH]; intros n x h0 HN HF; [lia|]. destruct n as [k ty ve tx at_ co ma].
  pose proof HN as (a & fs & -> & HA & H1 & H2 & H3 & H4 & H5 & H6 & H7).
  assert (HE : all2 (edge_of den_in (nth_error h0)) (node_items (Node k ty ve tx at_ co ma)) fs).
  { apply node_edges_of; auto. intros l _ n x _. apply node_fin. }
  pose proof (node_items_size (Node k ty ve tx at_ co ma)) as HS.
  destruct f as [|f]; [cbn [node_size] in HF; lia|].
  destruct (asdict_inst f a (TNode k) fs (node_items (Node k ty ve tx at_ co ma)) h0 HA HE) as (h1 & d & E1 & G1 & L1 & N1 & A1).
  { intros key i HI. specialize (HS key i HI). lia. }
  set (r := List.length h1 - 1) in *.
  assert (D1 : data h0 r (node_items (Node k ty ve tx at_ co ma)) h1). { split; [exact L1|]. split; [exact G1|]. exists d. auto. }
  set (F := S f) in *.
  replace (h_to_dict (S F) (Ref a) h0) with
    ((let! _ <- match lookup (s "attrs") d with
                            | None | Some HOpt => hret tt
                            | Some _ =>
                                match lookup (s "attrs") fs with
                                | Some (Ref b) =>
                                    let! ob <- get_obj b;
                                    match ob with
                                    | Some (OInst _ _) => let! x <- h_to_dict F (Ref b); setitem r (s "attrs") x
                                    | _ => hret tt
                                    end
                                | _ => hret tt
                                end
                            end;
      let! _ <- h_slot F r (s "content") (lookup (s "content") d) (lookup (s "content") fs);
      let! _ <- h_slot F r (s "marks") (lookup (s "marks") d) (lookup (s "marks") fs);
      h_remove_optional (Ref r)) h1).
  2:{ match goal with |- ?M h1 = _ => set (m := M) end.
      assert (HR : h_to_dict (S F) (Ref a) h0 = match m h1 with (h', lg, o) => (h', [] ++ [] ++ [] ++ lg, o) end).
      { cbn [h_to_dict]. change (hbind (get_obj a) ?X h0) with (match X (nth_error h0 a) h0 with (h', lg, o) => (h', [] ++ lg, o) end).
        rewrite HA. cbn iota.
        match goal with |- (match hbind ?A0 ?B0 h0 with _ => _ end) = _ =>
          assert (HB : hbind A0 B0 h0 = match B0 (Ref r) h1 with (h', lg, o) => (h', [] ++ lg, o) end) by (unfold hbind; rewrite E1; reflexivity) end.
        rewrite HB. clear HB. cbn iota beta zeta.
        change (hbind (get_obj r) ?X h1) with (match X (nth_error h1 r) h1 with (h', lg, o) => (h', [] ++ lg, o) end). rewrite N1. cbn iota beta.
        match goal with |- match (match (match ?X h1 with _ => _ end) with _ => _ end) with _ => _ end = _ => change (X h1) with (m h1) end.
        destruct (m h1) as [[h' lg] o]. reflexivity. }
      rewrite HR. destruct (m h1) as [[h' lg] o]. reflexivity. }
  assert (ST1 : exists h2 L2, match lookup (s "attrs") d with
                            | None | Some HOpt => hret tt
                            | Some _ =>
                                match lookup (s "attrs") fs with
                                | Some (Ref b) =>
                                    let! ob <- get_obj b;
                                    match ob with
                                    | Some (OInst _ _) => let! x <- h_to_dict F (Ref b); setitem r (s "attrs") x
                                    | _ => hret tt
                                    end
                                | _ => hret tt
                                end
                            end h1 = (h2, [], Val tt) /\ data h0 r L2 h2 /\
                    L2 = match at_ with AObj l => put (s "attrs") (DV (attrs_to_dict l)) (node_items (Node k ty ve tx at_ co ma)) | _ => node_items (Node k ty ve tx at_ co ma) end).
  { pose proof (edge_lookup _ _ _ _ (s "attrs") A1) as HX. rewrite lookup_attrs in HX. destruct at_ as [| |l]; cbn [attrs_item] in HX.
    - rewrite HX. exists h1. eexists. split; [reflexivity|]. split; [exact D1|reflexivity].
    - destruct HX as (y & -> & HY). cbn in HY. subst y. exists h1. eexists. split; [reflexivity|]. split; [exact D1|reflexivity].
    - destruct HX as (y & HX & HY). destruct H4 as (z & H4 & HZ). pose proof HZ as (b & bs & -> & HB & _).
      destruct (attrs_to_dict_sim F l (Ref b) h1) as (h2 & w & E2 & D2).
      { eapply den_attrs_mono; [apply grows_sub, G1|exact HZ]. }
      { cbn [node_size] in HF. lia. }
      assert (R1 : r < List.length h1) by (eapply nth_lt; eauto).
      destruct (wb_use _ _ _ _ _ _ (to_dict_wb F) E2) as (G2 & _ & _).
      destruct (data_set h0 r _ h1 h2 (s "attrs") (attrs_to_dict l) w D1 G2) as (h3 & E3 & D3).
      { eapply fresh_avoids; [apply (to_dict_wb F)|exact R1|exact E2|exact D2]. }
      exists h3. eexists. split; [|split; [exact D3|reflexivity]]. rewrite HX, H4.
      assert (HG : (let! ob <- get_obj b; match ob with Some (OInst _ _) => let! x <- h_to_dict F (Ref b); setitem r (s "attrs") x | _ => hret tt end) h1 = (h3, [], Val tt)).
      { unfold hbind, get_obj. rewrite (proj2 G1) by (eapply nth_lt; eauto). rewrite HB. rewrite E2, E3. reflexivity. }
      destruct y; try exact HG. now destruct HY. }
  destruct ST1 as (h2 & L2 & E2 & D2 & EL2).
  assert (HC : exists y : nat, node_size (Node k ty ve tx at_ co ma) = S (S y)).
  { cbn [node_size]. pose proof (size_pos ty). destruct (size ty) as [|q]; [lia|]. eexists. reflexivity. }
  pose proof (slot_step den_node node_to_dict F h0 r L2 h2 (s "content") co (lookup (s "content") d) (lookup (s "content") fs)
    (fun g g' n x H => den_node_mono g g' H n x)) as SC.
  specialize (SC ltac:(unfold F; lia)).
  assert (SC1 : forall l, co = Items l -> forall n, In n l -> forall h x, den_node (nth_error h) n x -> same den (node_to_dict n) (h_to_dict F x h)).
  { intros l -> n Hn h x HX. apply IH; [exact HX|]. cbn [node_size slot_size] in HF. pose proof (sum_with_In node_size l n Hn). lia. }
  specialize (SC SC1 H5 (slot_lookup node_size co "content" _ _ d A1 (lookup_content k ty ve tx at_ co ma)) D2).
  unfold hbind at 1. rewrite E2. cbn [node_to_dict]. fold (slot_dicts node_to_dict co).
  destruct (slot_dicts node_to_dict co) as [cs|e] eqn:EC; cbn [rbind].
  2:{ destruct SC as (h3 & E3). unfold hbind at 1. rewrite E3. exists h3. reflexivity. }
  destruct SC as (h3 & E3 & D3).
  pose proof (slot_step den_mark (fun m => Ok (mark_to_dict m)) F h0 r (put_opt (s "content") cs L2) h3 (s "marks") ma (lookup (s "marks") d) (lookup (s "marks") fs)
    (fun g g' n x H => den_mark_mono g g' n x H)) as SM.
  specialize (SM ltac:(unfold F; lia)).
  assert (SM1 : forall l, ma = Items l -> forall n, In n l -> forall h x, den_mark (nth_error h) n x -> same den (Ok (mark_to_dict n)) (h_to_dict F x h)).
  { intros l -> n Hn h x HX. apply mark_to_dict_sim; [exact HX|]. cbn [node_size slot_size] in HF. pose proof (sum_with_In mark_size l n Hn). lia. }
  specialize (SM SM1 H6 (slot_lookup mark_size ma "marks" _ _ d A1 (lookup_marks k ty ve tx at_ co ma)) D3).
  assert (EQM : (match ma with NoField | SOpt => Ok None | Items l => Ok (Some (map mark_to_dict l)) | Raw v => do xs <- raw_to_dicts v; Ok (Some xs) end)
     = slot_dicts (fun m => Ok (mark_to_dict m)) ma).
  { destruct ma as [| |l|v]; try reflexivity. cbn [slot_dicts].
    now rewrite mapM_pure. }
  rewrite EQM. clear EQM.
  unfold hbind at 1. rewrite E3. destruct (slot_dicts (fun m => Ok (mark_to_dict m)) ma) as [ms|e] eqn:EM; cbn [rbind].
  2:{ destruct SM as (h4 & E4). unfold hbind at 1. rewrite E4. exists h4. reflexivity. }
  destruct SM as (h4 & E4 & D4). unfold hbind at 1. rewrite E4. destruct D4 as (_ & _ & d4 & N4 & A4).
  set (D := (s "type", ty) :: match ve with Some v => [(s "version", v)] | None => [] end
            ++ match tx with Some v => [(s "text", v)] | None => [] end
            ++ match at_ with NoAttrs => [] | AOpt => [(s "attrs", VOpt)] | AObj l => [(s "attrs", attrs_to_dict l)] end
            ++ match co with NoField => [] | SOpt => [(s "content", VOpt)] | _ => match cs with Some l => [(s "content", VList l)] | None => [] end end
            ++ match ma with NoField => [] | SOpt => [(s "marks", VOpt)] | _ => match ms with Some l => [(s "marks", VList l)] | None => [] end end).
  assert (EL : put_opt (s "marks") ms (put_opt (s "content") cs L2) = all_values D).
  { subst L2. destruct (slot_some _ _ _ EC) as [[CC ->]|(lc & CC & ->)]; destruct (slot_some _ _ _ EM) as [[MM ->]|(lm & MM & ->)]; unfold D;
      destruct ve, tx, at_, co; try discriminate CC; destruct ma; try discriminate MM; reflexivity. }
  rewrite EL in A4. apply all_values_out in A4. destruct (remove_run h4 r d4 D N4 A4) as (h5 & y & E5 & D5).
  rewrite E5. exists h5, y. split; [reflexivity|]. 
  match goal with |- den _ (VDict (remove_optional ?X)) _ => replace (remove_optional X) with (remove_optional D); [exact D5|] end.
  unfold D, remove_optional. destruct (slot_some _ _ _ EC) as [[CC ->]|(lc & CC & ->)]; destruct (slot_some _ _ _ EM) as [[MM ->]|(lm & MM & ->)];
    cbn [filter]; (match goal with |- (if ?b then _ else _) = _ => destruct b end; [f_equal|]);
    rewrite !filter_app; (do 2 f_equal); destruct at_, co; try discriminate CC; destruct ma; try discriminate MM; reflexivity.
Qed.
