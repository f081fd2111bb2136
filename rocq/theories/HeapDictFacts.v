(** to_dict allocates, and writes only what it allocated. *)
From Coq Require Import List NArith ZArith Bool String Arith Lia.
From Verif Require Import PyStr Values Schema Parse Serialize Basics Heap SpecHeap HeapFacts DenFacts CopyFacts HeapRefine HeapDict.
Import ListNotations.
Open Scope string_scope.
Open Scope list_scope.
Open Scope nat_scope.

Lemma ok_hmap {A B} base (f : A -> H B) P : (forall a, ok base (f a) P) -> forall l, ok base (hmap f l) (Forall P).
Proof.
  intros HF. induction l as [|a l IH]; cbn [hmap]; [apply ok_ret; constructor|]. fold (hmap f).
  eapply ok_bind; [apply HF|]. intros b HB. eapply ok_bind; [exact IH|]. intros bs HBS. apply ok_ret. now constructor.
Qed.
Lemma ok_asdict base : forall fuel v, ok base (h_asdict fuel v) (fresh base).
Proof.
  induction fuel as [|f IH]; intros v; destruct v as [| | | | | |a]; cbn [h_asdict];
    try (apply ok_ret; apply fresh_imm; discriminate); [apply ok_deep|].
  eapply ok_bind; [apply ok_get_any|]. intros [[l|d|t d]|] _; [| | |apply ok_raise].
  - eapply ok_bind; [apply ok_hmap, IH|]. intros ys HY. apply ok_new. exact HY.
  - eapply ok_bind; [apply ok_hmap, IH|]. intros ys HY. apply ok_new. now apply fresh_combine.
  - eapply ok_bind; [apply ok_hmap, IH|]. intros ys HY. apply ok_new. now apply fresh_combine.
Qed.
Lemma Forall_filter {A} (P : A -> Prop) f l : Forall P l -> Forall P (filter f l).
Proof. induction 1; cbn; [constructor|]. destruct (f x); [constructor; auto|auto]. Qed.
Lemma ok_remove base v : fresh base v -> ok base (h_remove_optional v) (fresh base).
Proof.
  intros HV. unfold h_remove_optional. destruct v; try apply ok_raise. apply ok_dispatch; [now apply HV|].
  intros [[l|d|t d]|] HO; try apply ok_raise. apply ok_new. specialize (HO _ eq_refl). unfold fresh_obj in *. cbn [items_of] in *.
  rewrite Forall_map in *. now apply Forall_filter.
Qed.
Lemma ok_iter base v : ok base (h_iter v) (fun _ => True).
Proof.
  unfold h_iter. destruct v; try apply ok_raise; [now apply ok_ret|]. eapply ok_bind; [apply ok_get_any|].
  intros [[l|d|t d]|] _; try apply ok_raise; now apply ok_ret.
Qed.
Lemma ok_to_dict base : forall fuel v, ok base (h_to_dict fuel v) (fresh base).
Proof.
  induction fuel as [|f IH]; intros v; cbn [h_to_dict]; [apply ok_deep|]. destruct v as [| | | | | |a]; try apply ok_raise.
  eapply ok_bind; [apply ok_get_any|]. intros [[l|d|t self]|] _; try apply ok_raise.
  destruct t; [|eapply ok_bind; [apply ok_asdict|]; intros y HY; now apply ok_remove..].
  eapply ok_bind; [apply ok_asdict|]. intros y HY. destruct y as [| | | | | |r]; try apply ok_raise.
  pose proof (HY r eq_refl) as HR. eapply ok_bind; [apply ok_get_any|]. intros od _. cbv beta zeta.
  assert (HC : forall key c, ok base (let! l <- h_iter c; let! xs <- hmap (h_to_dict f) l; let! b <- alloc (OList xs); setitem r key (Ref b)) (fun _ => True)).
  { intros key c. eapply ok_bind; [apply ok_iter|]. intros l _. eapply ok_bind; [apply ok_hmap, IH|]. intros xs HX.
    eapply ok_bind; [now apply ok_alloc|]. intros b HB. apply ok_setitem; [exact HR|now apply fresh_ref]. }
  set (es := match od with Some (ODict d) => d | _ => [] end). clearbody es.
  eapply ok_bind with (P := fun _ => True).
  { assert (HA : ok base (match lookup (s "attrs") self with
      | Some (Ref b) => let! ob <- get_obj b;
          match ob with Some (OInst _ _) => let! x <- h_to_dict f (Ref b); setitem r (s "attrs") x | _ => hret tt end
      | _ => hret tt end) (fun _ => True)).
    { destruct (lookup (s "attrs") self) as [[| | | | | |b]|]; try now apply ok_ret. eapply ok_bind; [apply ok_get_any|].
      intros [[l|d|t fs]|] _; try now apply ok_ret. eapply ok_bind; [apply IH|]. intros x HX. now apply ok_setitem. }
    destruct (lookup (s "attrs") es) as [[]|]; first [now apply ok_ret|exact HA]. }
  intros _ _. eapply ok_bind with (P := fun _ => True).
  { destruct (lookup (s "content") es) as [[]|], (lookup (s "content") self); first [now apply ok_ret|apply HC]. }
  intros _ _. eapply ok_bind with (P := fun _ => True).
  { destruct (lookup (s "marks") es) as [[]|], (lookup (s "marks") self); first [now apply ok_ret|apply HC]. }
  intros _ _. now apply ok_remove.
Qed.
Lemma asdict_wb fuel : well_behaved (h_asdict fuel).
Proof. intros base v. apply ok_asdict. Qed.
Lemma to_dict_wb fuel : well_behaved (h_to_dict fuel).
Proof. intros base v. apply ok_to_dict. Qed.
