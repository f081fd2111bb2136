(** How many objects to_dict allocates. *)
From Coq Require Import List NArith ZArith Bool String Arith Lia.
From Verif Require Import PyStr Values Schema Parse Basics Heap SpecHeap HeapFacts DenFacts CopyFacts HeapRefine HeapDict HeapDictFacts HeapDictRefine SpecCost CostFacts.
Import ListNotations.
Open Scope string_scope.
Open Scope list_scope.
Open Scope nat_scope.

(** [mass g c x]: following references from [x] meets at most [c] objects, counting repetitions. *)
Inductive mass (g : store) : nat -> hval -> Prop :=
| m_imm c x : (forall a, x <> Ref a) -> mass g c x
| m_ref c a o b : g a = Some o -> masses g b (items_of o) -> S b <= c -> mass g c (Ref a)
with masses (g : store) : nat -> list hval -> Prop :=
| ms_nil c : masses g c []
| ms_cons c c1 c2 x l : mass g c1 x -> masses g c2 l -> c1 + c2 <= c -> masses g c (x :: l).
Scheme mass_mind := Minimality for mass Sort Prop with masses_mind := Minimality for masses Sort Prop.
Combined Scheme mass_both from mass_mind, masses_mind.

Lemma mass_mono g g' : sub g g' -> (forall c x, mass g c x -> mass g' c x) /\ (forall c l, masses g c l -> masses g' c l).
Proof.
  intros HS. apply (mass_both g (fun c x => mass g' c x) (fun c l => masses g' c l)).
  - intros c x H. now constructor.
  - intros c a o b HO _ H HL. apply (m_ref g' c a o b); auto.
  - intros c. constructor.
  - intros c c1 c2 x l _ H1 _ H2 HL. now apply (ms_cons g' c c1 c2).
Qed.
Lemma mass_le g c c' x : mass g c x -> c <= c' -> mass g c' x.
Proof.
  intros H HL. inversion H as [? ? HN|? a o b HO HI HB]; subst; [now constructor|]. apply (m_ref g c' a o b); auto. lia.
Qed.
Lemma masses_le g c c' l : masses g c l -> c <= c' -> masses g c' l.
Proof. intros H HL. inversion H as [|? c1 c2 ? ? M1 M2 HLE]; subst; [constructor|]. apply (ms_cons g c' c1 c2); auto. lia. Qed.
Lemma masses_of {A} g (R : A -> hval -> Prop) (c : A -> nat) l xs : (forall a x, In a l -> R a x -> mass g (c a) x) -> all2 R l xs ->
  masses g (sum_with c l) xs.
Proof.
  revert xs. induction l as [|a l IH]; intros [|x xs] HC; cbn; try tauto; [constructor|]. intros [H1 H2].
  apply (ms_cons g _ (c a) (sum_with c l)); [apply HC; [now left|exact H1]|apply IH; [|exact H2]|lia]. intros b y Hb. apply HC. now right.
Qed.

Lemma asdict_cost f : forall c x h, mass (nth_error h) c x -> grown c h (h_asdict f x h).
Proof.
  induction f as [|f IH]; intros c x h HM; [destruct x; cbv [grown]; cbn; lia|].
  assert (HL : forall c l h, masses (nth_error h) c l -> grown c h (hmap (h_asdict f) l h)).
  { clear c x h HM. intros c l. revert c. induction l as [|x l IHl]; intros c h HM; cbn [hmap]; [cbv [grown]; cbn; lia|].
    inversion HM as [|? c1 c2 ? ? M1 M2 HLE]; subst. fold (hmap (h_asdict f)). pose proof (IH c1 x h M1) as H1. unfold grown, hbind in *.
    destruct (h_asdict f x h) as [[h1 lg1] o1] eqn:E1. destruct (wb_use _ _ _ _ _ _ (asdict_wb f) E1) as (G1 & _ & _).
    cbn [fst snd] in H1. destruct o1 as [y|e|]; cbn [fst snd]; try lia.
    specialize (IHl c2 h1 (proj2 (mass_mono _ _ (grows_sub _ _ G1)) _ _ M2)). unfold grown in IHl.
    destruct (hmap (h_asdict f) l h1) as [[h2 lg2] [ys|e|]]; cbn [fst snd] in *; unfold hret; cbn [fst snd]; lia. }
  destruct x as [| | | | | |a]; try (cbv [grown]; cbn; lia). inversion HM as [? ? HN|? ? o b HO HI HB]; subst; [destruct (HN a eq_refl)|].
  cbn [h_asdict]. unfold grown, hbind at 1, get_obj. rewrite HO. cbn beta iota.
  destruct o as [l|d|t d]; cbn [items_of] in HI; specialize (HL b _ h HI); unfold grown, hbind, alloc, hret in *.
  - destruct (hmap (h_asdict f) l h) as [[h2 lg2] [ys|e|]]; cbn [fst snd] in *; rewrite ?app_length; cbn [List.length]; lia.
  - destruct (hmap (h_asdict f) (map snd d) h) as [[h2 lg2] [ys|e|]]; cbn [fst snd] in *; rewrite ?app_length; cbn [List.length]; lia.
  - destruct (hmap (h_asdict f) (map snd d) h) as [[h2 lg2] [ys|e|]]; cbn [fst snd] in *; rewrite ?app_length; cbn [List.length]; lia.
Qed.

Lemma edges_mass g d e : (forall k y, In (k, y) d -> forall x, den g y x -> mass g (containers y) x) -> all2 (edge g) d e ->
  masses g (sum_with (fun e => match e with (_, y) => containers y end) d) (map snd e).
Proof.
  revert e. induction d as [|[k y] d IH]; intros [|[k' x] e] HC; cbn; try tauto; [constructor|]. intros [[_ H1] H2].
  eapply ms_cons; [apply (HC k y); [now left|exact H1]|apply IH; [|exact H2]|].
  - intros k0 y0 H0. apply (HC k0). now right.
  - apply le_n.
Qed.
Lemma den_mass g : forall v x, den g v x -> mass g (containers v) x.
Proof.
  induction v as [| | | |y| |l IH|d IH] using value_ind'; intros x HD; cbn [den] in HD; try (subst x; now constructor).
  - destruct HD as (a & xs & -> & HA & HD). apply (m_ref g _ a (OList xs) (sum_with containers l)); [exact HA| |cbn; lia].
    cbn [items_of]. eapply masses_of; [|exact HD]. intros u x Hu. rewrite Forall_forall in IH. now apply IH.
  - destruct HD as (a & e & -> & HA & HD). eapply (m_ref g _ a (ODict e)); [exact HA| |cbn [containers]; apply le_n].
    cbn [items_of]. apply edges_mass; [|exact HD]. intros k y Hy x HX. rewrite Forall_forall in IH. now apply (IH (k, y) Hy).
Qed.
Lemma attrs_mass g l x : den_attrs g l x -> mass g (attrs_objects (AObj l)) x.
Proof.
  intros (a & e & -> & HA & HD). eapply (m_ref g _ a (OInst TAttrs e)); [exact HA| |cbn [attrs_objects]; apply le_n].
  cbn [items_of]. apply edges_mass; [|exact HD]. intros k y Hy x HX. now apply den_mass.
Qed.

(** The fields of an instance, each with its share. *)
Lemma fields_mass g (L : list (str * nat)) : forall fs, map fst fs = map fst L -> NoDup (map fst L) ->
  (forall k c, In (k, c) L -> exists x, lookup k fs = Some x /\ mass g c x) -> masses g (sum_with snd L) (map snd fs).
Proof.
  induction L as [|[k c] L IH]; intros [|[k' x] fs] HK HN HL; try discriminate; [constructor|]. cbn [map fst] in *.
  injection HK as -> HK. apply NoDup_cons_iff in HN as [HN1 HN2]. cbn [map snd sum_with].
  apply (ms_cons g _ c (sum_with snd L)); [| |apply le_n].
  - destruct (HL k c (or_introl eq_refl)) as (y & HY & HR). cbn [lookup] in HY. rewrite str_eqb_refl in HY. injection HY as ->. exact HR.
  - apply IH; [exact HK|exact HN2|]. intros k1 i1 HI. destruct (HL k1 i1 (or_intror HI)) as (y & HY & HR). exists y. split; [|exact HR].
    cbn [lookup] in HY. destruct (str_eqb k k1) eqn:E; [|exact HY]. apply str_eqb_eq in E. subst k1. exfalso. apply HN1.
    apply (in_map fst) in HI. exact HI.
Qed.
Definition opt_share (o : option value) (k : string) : list (str * nat) := match o with Some v => [(s k, containers v)] | None => [] end.
Definition attrs_share (a : attrs) : list (str * nat) := match a with NoAttrs => [] | _ => [(s "attrs", attrs_objects a)] end.
Definition slot_share {A} (f : A -> nat) (c : slot A) (k : string) : list (str * nat) :=
  match c with NoField => [] | _ => [(s k, slot_objects f c)] end.
Definition shares (n : node) : list (str * nat) :=
  match n with
  | Node _ ty ve tx at_ co ma => [(s "type", containers ty)] ++ opt_share ve "version" ++ opt_share tx "text" ++ attrs_share at_ ++
                                 slot_share node_objects co "content" ++ slot_share mark_objects ma "marks"
  end.
Lemma shares_keys k ty ve tx at_ co ma : map fst (shares (Node k ty ve tx at_ co ma)) =
  [s "type"] ++ if_some ve "version" ++ if_some tx "text" ++ if_attrs at_ ++ if_slot co "content" ++ if_slot ma "marks".
Proof. destruct ve, tx, at_, co, ma; reflexivity. Qed.
Lemma shares_nodup n : NoDup (map fst (shares n)).
Proof. apply nodupb_ok. destruct n as [k ty ve tx at_ co ma]. destruct ve, tx, at_, co, ma; reflexivity. Qed.
Lemma shares_sum n : S (sum_with snd (shares n)) = node_objects n.
Proof.
  assert (SA : forall (a b : list (str * nat)), sum_with snd (a ++ b) = sum_with snd a + sum_with snd b).
  { induction a as [|x a IH]; intros b; cbn; [reflexivity|]. rewrite IH. lia. }
  assert (SO : forall o k, sum_with snd (opt_share o k) = opt_objects o) by (intros [v|] k; cbn; lia).
  assert (SAT : forall a, sum_with snd (attrs_share a) = attrs_objects a) by (intros [| |l]; cbn; lia).
  assert (SS : forall A (f : A -> nat) c k, sum_with snd (slot_share f c k) = slot_objects f c) by (intros A f [| |l|v] k; cbn; lia).
  destruct n as [k ty ve tx at_ co ma]. unfold shares. rewrite !SA, !SO, SAT, !SS. cbn [node_objects sum_with snd]. lia.
Qed.
Lemma opt_share_in g o name r : field_den g o r -> forall k c, In (k, c) (opt_share o name) -> k = s name /\ exists x, r = Some x /\ mass g c x.
Proof.
  intros HF k c HI. destruct o as [v|]; cbn [opt_share] in HI; [|destruct HI]. destruct HI as [HI|[]].
  assert (k = s name) by congruence. assert (c = containers v) by congruence. subst c. split; [assumption|]. destruct HF as (x & H1 & H2). exists x. split; [exact H1|now apply den_mass].
Qed.
Lemma attrs_share_in g a r : attrs_field_den g a r -> forall k c, In (k, c) (attrs_share a) -> k = s "attrs" /\ exists x, r = Some x /\ mass g c x.
Proof.
  intros HF k c HI. destruct a as [| |l]; cbn [attrs_share] in HI; [destruct HI| |]; destruct HI as [HI|[]];
    (assert (k = s "attrs") by congruence; split; [assumption|]).
  - exists HOpt. split; [exact HF|]. constructor. discriminate.
  - assert (c = attrs_objects (AObj l)) by congruence. subst c. destruct HF as (x & H1 & H2). exists x. split; [exact H1|]. now apply attrs_mass.
Qed.
Lemma slot_share_in {A} g (R : A -> hval -> Prop) (f : A -> nat) (c : slot A) name o :
  (forall l, c = Items l -> forall a x, In a l -> R a x -> mass g (f a) x) -> slot_den g R c o ->
  forall k i, In (k, i) (slot_share f c name) -> k = s name /\ exists x, o = Some x /\ mass g i x.
Proof.
  intros HR HS k i HI. destruct c as [| |l|v]; cbn [slot_share] in HI; try (destruct HI; fail); destruct HI as [HI|[]];
    (assert (k = s name) by congruence; split; [assumption|]).
  - cbn in HS. exists HOpt. split; [exact HS|constructor; discriminate].
  - assert (i = slot_objects f (Items l)) by congruence. subst i. destruct HS as (b & xs & H1 & H2 & H3). exists (Ref b).
    split; [exact H1|]. cbn [slot_objects]. apply (m_ref g _ b (OList xs) (sum_with f l)); [exact H2| |apply le_n].
    cbn [items_of]. eapply masses_of; [|exact H3]. intros a x Ha HX. eapply HR; eauto.
  - assert (i = slot_objects f (Raw v)) by congruence. subst i. cbn [slot_objects]. destruct HS as ([HO _] & x & H1 & H2). exists x. split; [exact H1|]. now apply den_mass.
Qed.
Lemma mark_mass g m x : den_mark g m x -> mass g (mark_objects m) x.
Proof.
  intros (a & fs & -> & HA & HT & HR & HK). eapply (m_ref g _ a); [exact HA| |].
  - cbn [items_of]. apply (fields_mass g ([(s "type", containers (m_type m))] ++ attrs_share (m_attrs m))).
    + rewrite HK. destruct (m_attrs m); reflexivity.
    + apply nodupb_ok. destruct (m_attrs m); reflexivity.
    + intros k c HI. rewrite in_app_iff in HI. destruct HI as [HI|HI].
      * apply (opt_share_in g (Some (m_type m)) "type" _ HT) in HI. destruct HI as [-> HI]. exact HI.
      * apply (attrs_share_in g _ _ HR) in HI. destruct HI as [-> HI]. exact HI.
  - unfold mark_objects. destruct (m_attrs m); cbn; lia.
Qed.
Lemma node_mass g : forall n x, den_node g n x -> mass g (node_objects n) x.
Proof.
  induction n as [k ty ve tx at_ co ma IH] using node_ind'. intros x (a & fs & -> & HA & H1 & H2 & H3 & H4 & H5 & H6 & H7).
  eapply (m_ref g _ a); [exact HA| |].
  - cbn [items_of]. apply (fields_mass g (shares (Node k ty ve tx at_ co ma))).
    + rewrite shares_keys. exact H7.
    + apply shares_nodup.
    + intros key i HI. unfold shares in HI. rewrite !in_app_iff in HI. destruct HI as [HI|[HI|[HI|[HI|[HI|HI]]]]].
      * apply (opt_share_in g (Some ty) "type" _ H1) in HI. destruct HI as [-> HI]. exact HI.
      * apply (opt_share_in g ve "version" _ H2) in HI. destruct HI as [-> HI]. exact HI.
      * apply (opt_share_in g tx "text" _ H3) in HI. destruct HI as [-> HI]. exact HI.
      * apply (attrs_share_in g at_ _ H4) in HI. destruct HI as [-> HI]. exact HI.
      * apply (slot_share_in g (den_node g) node_objects co "content" (lookup (s "content") fs)) in HI; [|intros l -> n x Hn HX; cbn [on_items] in IH; rewrite Forall_forall in IH; now apply (IH n Hn)|exact H5].
        destruct HI as [-> HI]. exact HI.
      * apply (slot_share_in g _ mark_objects ma "marks" _ (fun _ _ m x _ => mark_mass g m x) H6) in HI. destruct HI as [-> HI]. exact HI.
  - rewrite shares_sum. apply le_n.
Qed.

(** The work of a node. *)
Definition items_work {A} (f : A -> nat) (c : slot A) : nat := match c with Items l => sum_with f l | _ => 0 end.
Fixpoint node_work (n : node) : nat :=
  match n with
  | Node k ty ve tx at_ co ma => node_objects n + attrs_objects at_ + items_work node_work co + items_work mark_objects ma
  end.
Lemma node_work_bound n : node_work n <= node_objects n * node_nesting n.
Proof.
  induction n as [k ty ve tx at_ co ma IH] using node_ind'. cbn [node_work node_objects node_nesting].
  assert (H1 : attrs_objects at_ <= attrs_objects at_ * attrs_nesting at_) by (destruct at_; cbn [attrs_objects attrs_nesting]; nia).
  assert (H2 : items_work node_work co <= slot_objects node_objects co * slot_nesting node_nesting co).
  { destruct co as [| |l|v]; cbn [items_work slot_objects slot_nesting]; try lia.
    assert (sum_with node_work l <= sum_with node_objects l * max_with node_nesting l); [|nia].
    rewrite <- sum_mul. apply sum_le. intros n Hn. cbn [on_items] in IH. rewrite Forall_forall in IH. specialize (IH n Hn).
    pose proof (max_ge node_nesting l n Hn). nia. }
  assert (H3 : items_work mark_objects ma <= slot_objects mark_objects ma * slot_nesting mark_nesting ma).
  { destruct ma as [| |l|v]; cbn [items_work slot_objects slot_nesting]; nia. }
  set (N := Nat.max _ _). assert (attrs_nesting at_ <= N /\ slot_nesting node_nesting co <= N /\ slot_nesting mark_nesting ma <= N) by (unfold N; lia).
  clearbody N. nia.
Qed.

Definition to_bound (n : node) : nat := 5 * node_work n.
Lemma remove_cost v h : grown 1 h (h_remove_optional v h).
Proof.
  unfold grown, h_remove_optional, hbind, get_obj, alloc, hret, hraise. destruct v; cbn; try lia.
  destruct (nth_error h a) as [[l|d|t d]|]; cbn; try lia. rewrite app_length. cbn. lia.
Qed.
Lemma plain_cost f c x h : mass (nth_error h) c x -> grown (S c) h ((let! data <- h_asdict f x; h_remove_optional data) h).
Proof.
  intros HM. pose proof (asdict_cost f c x h HM) as HA. unfold grown, hbind in *. destruct (h_asdict f x h) as [[h1 lg1] [y|e|]]; cbn [fst snd] in *; try lia.
  pose proof (remove_cost y h1) as HR. unfold grown in HR. destruct (h_remove_optional y h1) as [[h2 lg2] o2]. cbn [fst snd] in *. lia.
Qed.
Lemma attrs_to_dict_cost f l x h : den_attrs (nth_error h) l x -> grown (S (attrs_objects (AObj l))) h (h_to_dict f x h).
Proof.
  intros HD. pose proof (attrs_mass _ _ _ HD) as HM. destruct HD as (a & fs & -> & HA & _). destruct f as [|f]; [cbv [grown]; cbn; lia|].
  cbn [h_to_dict]. unfold hbind at 1, get_obj. rewrite HA. cbn beta iota. pose proof (plain_cost f _ _ h HM) as HP. unfold grown in *.
  destruct ((let! data <- h_asdict f (Ref a); h_remove_optional data) h) as [[h1 lg1] o1]. exact HP.
Qed.
Lemma mark_to_dict_cost f m x h : den_mark (nth_error h) m x -> grown (S (mark_objects m)) h (h_to_dict f x h).
Proof.
  intros HD. pose proof (mark_mass _ _ _ HD) as HM. destruct HD as (a & fs & -> & HA & _). destruct f as [|f]; [cbv [grown]; cbn; lia|].
  cbn [h_to_dict]. unfold hbind at 1, get_obj. rewrite HA. cbn beta iota. pose proof (plain_cost f _ _ h HM) as HP. unfold grown in *.
  destruct ((let! data <- h_asdict f (Ref a); h_remove_optional data) h) as [[h1 lg1] o1]. exact HP.
Qed.

(** One of the two list steps of BaseNode.to_dict. *)
Definition list_step (f : nat) (r : addr) (key : str) (e c : option hval) : H unit :=
  match e, c with
  | None, _ | Some HOpt, _ | _, None => hret tt
  | Some _, Some c => let! l <- h_iter c; let! xs <- hmap (h_to_dict f) l; let! b <- alloc (OList xs); setitem r key (Ref b)
  end.
Lemma hmap_cost {A} (R : store -> A -> hval -> Prop) (c : A -> nat) f : (forall g g' n x, sub g g' -> R g n x -> R g' n x) ->
  forall ns, (forall n, In n ns -> forall x h, R (nth_error h) n x -> grown (c n) h (h_to_dict f x h)) ->
  forall xs h, all2 (R (nth_error h)) ns xs -> grown (sum_with c ns) h (hmap (h_to_dict f) xs h) /\ grows h (fst (fst (hmap (h_to_dict f) xs h))).
Proof.
  intros HR. induction ns as [|n ns IH]; intros HC [|x xs] h HA; try (destruct HA; fail).
  - split; [cbv [grown]; cbn; lia|apply grows_refl].
  - destruct HA as [H1 H2]. cbn [hmap sum_with]. fold (hmap (h_to_dict f)). unfold grown, hbind in *.
    pose proof (HC n (or_introl eq_refl) x h H1) as L1. destruct (h_to_dict f x h) as [[h1 lg1] o1] eqn:E1.
    destruct (wb_use _ _ _ _ _ _ (to_dict_wb f) E1) as (G1 & _ & _). cbn [fst snd] in L1. destruct o1 as [y|e|]; cbn [fst snd]; try (split; [lia|exact G1]).
    destruct (IH (fun u Hu => HC u (or_intror Hu)) xs h1) as [L2 G2].
    { eapply all2_impl; [|exact H2]. intros u z _ _. apply HR, grows_sub, G1. }
    unfold grown in L2. destruct (hmap (h_to_dict f) xs h1) as [[h2 lg2] [ys|e|]]; unfold hret; cbn [fst snd] in *; (split; [lia|eapply grows_trans; eauto]).
Qed.
Lemma setitem_grows h0 h r k v : grows h0 h -> List.length h0 <= r ->
  grows h0 (fst (fst (setitem r k v h))) /\ List.length (fst (fst (setitem r k v h))) = List.length h.
Proof.
  intros [L G] HR. unfold setitem, hbind, get_obj, write, hraise.
  destruct (nth_error h r) as [[l|d|t d]|]; cbn [fst snd]; try (split; [split; assumption|reflexivity]).
  rewrite set_nth_length. split; [|reflexivity]. split; [rewrite set_nth_length; exact L|]. intros a Ha. rewrite nth_error_set.
  destruct (Nat.eqb_spec a r); [lia|]. now apply G.
Qed.
Lemma strings_cost f l h : Forall (fun x => forall a, x <> Ref a) l -> fst (fst (hmap (h_to_dict f) l h)) = h.
Proof.
  intros HL. destruct HL as [|x l HX _]; [reflexivity|]. cbn [hmap]. unfold hbind at 1.
  destruct f as [|f]; [reflexivity|]. cbn [h_to_dict]. destruct x as [| | | | | |a]; try reflexivity. destruct (HX a eq_refl).
Qed.
Lemma list_step_cost {A} (R : store -> A -> hval -> Prop) (c : A -> nat) f h0 r key e o h (sl : slot A) :
  (forall g g' n x, sub g g' -> R g n x -> R g' n x) ->
  (forall n, match sl with Items l => In n l | _ => False end -> forall x h, R (nth_error h) n x -> grown (c n) h (h_to_dict f x h)) ->
  slot_den (nth_error h0) (R (nth_error h0)) sl o -> grows h0 h -> List.length h0 <= r ->
  grown (S (items_work c sl)) h (list_step f r key e o h) /\ grows h0 (fst (fst (list_step f r key e o h))).
Proof.
  intros HR HC HS HG HL. set (P := fun r0 : heap * list warning * out unit => grown (S (items_work c sl)) h r0 /\ grows h0 (fst (fst r0))).
  change (P (list_step f r key e o h)).
  assert (ID : forall oo : out unit, P (h, @nil warning, oo)).
  { intros oo. split; [cbv [grown]; cbn; lia|exact HG]. }
  unfold list_step. destruct e as [e|]; [|apply ID].
  assert (HE : e = HOpt \/ (forall X Y : H unit, match e with HOpt => X | _ => Y end = Y)) by (destruct e; auto; right; reflexivity).
  assert (HM : forall oo, match e with HOpt => hret tt | _ => match oo with None => hret tt | Some c0 => (let! l <- h_iter c0; let! xs <- hmap (h_to_dict f) l; let! b <- alloc (OList xs); setitem r key (Ref b)) end end =
     match oo with None => hret tt | Some c0 => match e with HOpt => hret tt | _ => (let! l <- h_iter c0; let! xs <- hmap (h_to_dict f) l; let! b <- alloc (OList xs); setitem r key (Ref b)) end end).
  { intros [c0|]; destruct e; reflexivity. }
  replace (match e with
     | HNone => match o with Some c0 => (let! l <- h_iter c0; let! xs <- hmap (h_to_dict f) l; let! b <- alloc (OList xs); setitem r key (Ref b)) | None => hret tt end
     | HOpt => hret tt
     | _ => match o with Some c0 => (let! l <- h_iter c0; let! xs <- hmap (h_to_dict f) l; let! b <- alloc (OList xs); setitem r key (Ref b)) | None => hret tt end end)
     with (match o with None => hret tt | Some c0 => match e with HOpt => hret tt | _ => (let! l <- h_iter c0; let! xs <- hmap (h_to_dict f) l; let! b <- alloc (OList xs); setitem r key (Ref b)) end end) by (destruct e, o; reflexivity).
  destruct o as [x|]; [|apply ID]. destruct HE as [->|HE]; [apply ID|rewrite HE]. clear HM HE e.
  assert (HX : forall l, grown (items_work c sl) h (hmap (h_to_dict f) l h) -> grows h (fst (fst (hmap (h_to_dict f) l h))) ->
     P ((let! xs <- hmap (h_to_dict f) l; let! b <- alloc (OList xs); setitem r key (Ref b)) h)).
  { intros l L1 G1. unfold grown in *. unfold hbind at 1. unfold P, grown. destruct (hmap (h_to_dict f) l h) as [[h1 lg1] [ys|e|]]; cbn [fst snd] in *.
    2,3: split; [lia|eapply grows_trans; eauto].
    unfold hbind, alloc. cbn beta iota. destruct (setitem_grows h0 (h1 ++ [OList ys]) r key (Ref (List.length h1))) as [G2 L2]; [|exact HL|].
    { eapply grows_trans; [exact HG|]. eapply grows_trans; [exact G1|apply grows_snoc]. }
    destruct (setitem r key (Ref (List.length h1)) (h1 ++ [OList ys])) as [[h2 lg2] o2]. cbn [fst snd] in *.
    rewrite app_length in L2. cbn [List.length] in L2. split; [lia|exact G2]. }
  assert (IT : forall l, h_iter x h = (h, [], Val l) -> grown (items_work c sl) h (hmap (h_to_dict f) l h) -> grows h (fst (fst (hmap (h_to_dict f) l h))) ->
     P ((let! l <- h_iter x; let! xs <- hmap (h_to_dict f) l; let! b <- alloc (OList xs); setitem r key (Ref b)) h)).
  { intros l EI L1 G1. pose proof (HX l L1 G1) as H1. unfold hbind at 1. rewrite EI.
    destruct ((let! xs <- hmap (h_to_dict f) l; let! b <- alloc (OList xs); setitem r key (Ref b)) h) as [[h2 lg2] o2]. exact H1. }
  assert (ERR : forall e, h_iter x h = (h, [], Exc e) ->
     P ((let! l <- h_iter x; let! xs <- hmap (h_to_dict f) l; let! b <- alloc (OList xs); setitem r key (Ref b)) h)).
  { intros e EI. unfold hbind at 1. rewrite EI. apply ID. }
  clearbody P. destruct sl as [| |ns|v]; cbn [slot_den] in HS.
  - discriminate.
  - assert (x = HOpt) by congruence. subst x. apply (ERR TypeError). reflexivity.
  - destruct HS as (b & xs & HB & HO & HA). assert (x = Ref b) by congruence. subst x.
    destruct (hmap_cost R c f HR ns HC xs h) as [L1 G1]; [eapply all2_impl; [|exact HA]; intros u z _ _; apply HR, grows_sub, HG|].
    apply (IT xs); [|exact L1|exact G1]. unfold h_iter, hbind, get_obj. rewrite (grows_sub _ _ HG _ _ HO). reflexivity.
  - destruct HS as ([_ HNL] & y & HY & HV). assert (x = y) by congruence. subst y. clear HY.
    assert (ST : forall l, Forall (fun x => forall a, x <> Ref a) l -> grown (items_work c (Raw v)) h (hmap (h_to_dict f) l h) /\ grows h (fst (fst (hmap (h_to_dict f) l h)))).
    { intros l HF. pose proof (strings_cost f l h HF) as ES. unfold grown. rewrite ES. split; [lia|apply grows_refl]. }
    destruct v as [|b|z|fl|y|vs|vs|]; cbn [den] in HV; try (subst x; apply (ERR TypeError); reflexivity).
    + subst x. destruct (ST (map (fun c => HStr [c]) y)) as [L1 G1]; [apply Forall_map, Forall_forall; intros; discriminate|].
      apply (IT (map (fun c => HStr [c]) y)); [reflexivity|exact L1|exact G1].
    + destruct (HNL vs eq_refl).
    + destruct HV as (b & d & -> & HB & HD).
      destruct (ST (map (fun e => HStr (fst e)) d)) as [L1 G1]; [apply Forall_map, Forall_forall; intros; discriminate|].
      apply (IT (map (fun e => HStr (fst e)) d)); [|exact L1|exact G1]. unfold h_iter, hbind, get_obj. rewrite (grows_sub _ _ HG _ _ HB). reflexivity.
Qed.

Lemma to_dict_cost : forall f n x h, den_node (nth_error h) n x -> grown (to_bound n) h (h_to_dict f x h).
Proof.
  induction f as [|f IH]; intros n x h HD; [cbv [grown]; cbn; lia|].
  pose proof (node_mass _ _ _ HD) as HM. unfold to_bound. destruct n as [k ty ve tx at_ co ma].
  set (N := node_objects (Node k ty ve tx at_ co ma)) in *.
  assert (HW : N + (1 + attrs_objects at_) + (1 + items_work to_bound co) + (1 + items_work (fun m => S (mark_objects m)) ma) + 1 <= 5 * node_work (Node k ty ve tx at_ co ma)).
  { cbn [node_work]. fold N. assert (H1 : 1 <= N) by (unfold N; cbn; lia).
    assert (H2 : items_work to_bound co = 5 * items_work node_work co).
    { destruct co as [| |l|v]; cbn; try lia. clear. unfold to_bound. induction l as [|a l IH]; cbn in *; lia. }
    assert (H3 : items_work (fun m => S (mark_objects m)) ma <= 2 * items_work mark_objects ma).
    { destruct ma as [| |l|v]; cbn; try lia. clear. induction l as [|a l IH]; cbn [sum_with] in *; [lia|]. assert (1 <= mark_objects a) by (unfold mark_objects; lia). lia. }
    lia. }
  set (B := 5 * node_work _) in *. clearbody B.
  destruct HD as (a & fs & -> & HA & H1 & H2 & H3 & H4 & H5 & H6 & H7).
  cbn [h_to_dict]. unfold hbind at 1, get_obj at 1. rewrite HA. cbn beta iota.
  pose proof (asdict_cost f _ _ h HM) as LA. unfold grown in *. unfold hbind at 1.
  destruct (h_asdict f (Ref a) h) as [[h1 lg1] o1] eqn:E1. destruct (wb_use _ _ _ _ _ _ (asdict_wb f) E1) as (G1 & _ & F1).
  cbn [fst snd] in LA. destruct o1 as [y|e|]; cbn [fst snd]; try lia.
  destruct y as [| | | | | |r]; try (cbn; lia). pose proof (F1 (Ref r) eq_refl r eq_refl) as HR.
  unfold hbind at 1, get_obj at 1. cbn beta iota. set (entries := match nth_error h1 r with Some (ODict d) => d | _ => [] end).
  (* attrs *)
  set (st := match lookup (s "attrs") entries with Some _ => _ | None => _ end).
  destruct (st h1) as [[h2 lg2] o2] eqn:E2.
  assert (A2 : List.length h2 <= List.length h1 + (1 + attrs_objects at_) /\ grows h h2).
  { assert (ID : (h1, @nil warning, Val tt) = (h2, lg2, o2) -> List.length h2 <= List.length h1 + (1 + attrs_objects at_) /\ grows h h2).
    { intros [= <- _ _]. split; [lia|exact G1]. }
    assert (ST : forall b ob, (let! ob0 <- get_obj b; match ob0 with Some (OInst _ _) => ob b | _ => hret tt end) h1 = (h2, lg2, o2) ->
               lookup (s "attrs") fs = Some (Ref b) -> (ob = fun b => let! x <- h_to_dict f (Ref b); setitem r (s "attrs") x) ->
               List.length h2 <= List.length h1 + (1 + attrs_objects at_) /\ grows h h2).
    { intros b ob HE HLA ->. destruct at_ as [| |l]; cbn [attrs_field_den] in H4; [congruence|congruence|].
      destruct H4 as (x & HX & HDA). assert (x = Ref b) by congruence. subst x.
      pose proof (den_attrs_mono _ _ _ _ (grows_sub _ _ G1) HDA) as HDA1.
      unfold hbind at 1, get_obj in HE. pose proof HDA1 as (b' & fs' & HB & HN & _). assert (b' = b) by congruence. subst b'. rewrite HN in HE.
      pose proof (attrs_to_dict_cost f l (Ref b) h1 HDA1) as LT. unfold grown, hbind in *.
      destruct (h_to_dict f (Ref b) h1) as [[h3 lg3] o3] eqn:E3. destruct (wb_use _ _ _ _ _ _ (to_dict_wb f) E3) as (G3 & _ & _).
      cbn [fst snd] in LT. destruct o3 as [z|e|]; cbn beta iota in HE.
      - destruct (setitem_grows h h3 r (s "attrs") z) as [G4 L4]; [eapply grows_trans; eauto|exact HR|].
        destruct (setitem r (s "attrs") z h3) as [[h4 lg4] o4]. cbn [fst snd] in *. assert (h4 = h2) by congruence. subst h4. split; [lia|exact G4].
      - assert (h3 = h2) by congruence. subst h3. split; [lia|eapply grows_trans; eauto].
      - assert (h3 = h2) by congruence. subst h3. split; [lia|eapply grows_trans; eauto]. }
    unfold st in E2. destruct (lookup (s "attrs") entries) as [ev|]; [|now apply ID].
    destruct ev as [| | | | | |ea]; try (apply ID, E2);
      (destruct (lookup (s "attrs") fs) as [[| | | | | |b0]|]; try (apply ID, E2);
       eapply (ST b0 (fun b => let! x <- h_to_dict f (Ref b); setitem r (s "attrs") x)); [exact E2|reflexivity|reflexivity]). }
  destruct A2 as [L2 G2]. unfold hbind at 1. rewrite E2. destruct o2 as [u2|e|]; cbn [fst snd]; try lia. clear E2 st.
  (* content *)
  match goal with |- context [hbind ?m _ h2] => change m with (list_step f r (s "content") (lookup (s "content") entries) (lookup (s "content") fs)) end.
  destruct (list_step_cost den_node to_bound f h r (s "content") (lookup (s "content") entries) (lookup (s "content") fs) h2 co) as [L3 G3];
    [intros g g' n x HG; now apply den_node_mono|intros n _ x h' HX; now apply IH|exact H5|exact G2|exact HR|].
  unfold grown in L3. unfold hbind at 1. destruct (list_step f r (s "content") _ _ h2) as [[h3 lg3] o3]. cbn [fst snd] in L3, G3.
  destruct o3 as [u3|e|]; cbn [fst snd]; try lia.
  match goal with |- context [hbind ?m _ h3] => change m with (list_step f r (s "marks") (lookup (s "marks") entries) (lookup (s "marks") fs)) end.
  destruct (list_step_cost den_mark (fun m => S (mark_objects m)) f h r (s "marks") (lookup (s "marks") entries) (lookup (s "marks") fs) h3 ma) as [L4 G4];
    [intros g g' n x HG; now apply den_mark_mono|intros n _ x h' HX; now apply mark_to_dict_cost|exact H6|exact G3|exact HR|].
  unfold grown in L4. unfold hbind at 1. destruct (list_step f r (s "marks") _ _ h3) as [[h4 lg4] o4]. cbn [fst snd] in L4, G4.
  destruct o4 as [u4|e|]; cbn [fst snd]; try lia.
  pose proof (remove_cost (Ref r) h4) as LR. unfold grown in LR. destruct (h_remove_optional (Ref r) h4) as [[h5 lg5] o5]. cbn [fst snd] in *. lia.
Qed.
