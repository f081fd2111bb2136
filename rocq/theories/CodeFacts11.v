(** Running the source text (RepoCode.v): bullet lists. *)
From Coq Require Import List NArith ZArith Bool String Lia.
From Verif Require Import PyStr Values Schema Parse Date Markdown Basics StrFacts PySyntax PySem RepoCode CodeFacts CodeFacts2 CodeFacts3 CodeFacts4 CodeFacts5 CodeFacts9 CodeFacts10.
Import ListNotations.
Open Scope string_scope.
Open Scope list_scope.

(** As [class_ok], for classes that also render the children of their children. *)
Definition class_ok2 (E : runtime) (n : node) : Prop :=
  forall k, fits n -> kids_ok E (S (S k)) (n_content n) ->
  (forall l, n_content n = Items l -> Forall (fun c => kids_ok E (S (S k)) (n_content c)) l) -> child_ok E (S (S (S (S k)))) n.
Ltac lclass_ E f k HF HK HG HAC level ign :=
  let lv := fresh "lv" in let oi := fresh "oi" in
  intros k HF HK HG lv oi; rewrite (call_bound E _ _ _ f) by (vm_compute; reflexivity);
  rewrite level_kws by reflexivity; cbn [to_md]; generalize (ign_of oi) as ign; clear oi; intros ign;
  change (match lv with Some l => l | None => O end) with (lvl lv); generalize (lvl lv) as level; clear lv; intros level;
  enter f; pose proof (fits_attrs_class _ HF) as HAC; cbn [n_attrs n_content] in HAC, HG; py.

Section Lists.
Variable E : runtime.
Notation class_ok2 := (class_ok2 E).
Notation CL k := (call E repo node_cls mark_cls k).
Notation GA := (get_attr repo node_cls mark_cls).
Lemma child_lv k n level : child_ok E k n ->
  CL k (PBound (PN n) "to_markdown") [] [("level", PV (VInt (Z.of_nat level + 1)))] = of_res (rmap PV (to_md E n (Some (S level)) false)).
Proof. intros H. specialize (H (Some (S level)) None). cbn [kw_lv kw_ign app] in H. rewrite Nat2Z.inj_succ, <- Z.add_1_r in H. exact H. Qed.
Lemma rstrip_other v : match v with VStr _ => False | _ => True end -> GA (PV v) "rstrip" = Exc AttributeError.
Proof. intros H. rewrite data_ga by reflexivity. destruct v; try contradiction; reflexivity. Qed.
Lemma split_nonempty x : exists h t, split_on NL x = h :: t.
Proof. destruct (split_on NL x) as [|h t] eqn:D; [now apply split_on_nonnil in D|eauto]. Qed.
Lemma first_run (h : str) t : nth_or (map (fun y => PV (VStr y)) (h :: t)) 0 (fun v => v) = Val (PV (VStr h)).
Proof. reflexivity. Qed.
Lemma rest_run (h : str) t : slice_from (PL true (map (fun y => PV (VStr y)) (h :: t))) (PV (VInt 1)) = Val (PL true (map pstr t)).
Proof. reflexivity. Qed.
Lemma times_run level x : times (VInt (Z.of_nat level)) x = Ok (repeat_nat x level).
Proof. cbn [times]. now rewrite repeat_nat_run. Qed.
Lemma lines_app {A} (f : A -> list str) acc x : map pstr (List.concat (map f (acc ++ [x]))) = map pstr (List.concat (map f acc)) ++ map pstr (f x).
Proof. rewrite map_app, concat_app, map_app. cbn [map List.concat]. now rewrite app_nil_r. Qed.
Lemma class_bulletList ty ve tx a co ma : class_ok2 (Node KbulletList ty ve tx a co ma).
Proof.
  lclass_ E m_NodeBulletList_to_markdown k HF HK HG HAC level ign. rewrite times_run. py. field_of HF co HCF HCP. rewrite freeze_slot. unfold bullet_list_md, list_items.
  the_loop co (fun acc (j : pv * pv * pv * pv * pv * pv * pv * pv) => let '(item, cl, nd, md, ic, bc, fl, rl) := j in
       [("self", PN (Node KbulletList ty ve tx a co ma)); ("level", PV (VInt (Z.of_nat level))); ("ignore_error", PV (VBool ign));
         ("lines", PL true (map pstr (List.concat (map (bullet_item level) acc))));
         ("indent", PV (VStr (repeat_nat (s "    ") level))); ("item", item); ("content_lines", cl); ("node", nd); ("md", md); ("e", PUnbound); ("item_content", ic);
         ("bullet_content", bc); ("first_line", fl); ("remaining_lines", rl)])
    (fun item : node => if is_type_of item [s "listItem"] then do ls <- item_lines (to_md E) (s "bulletList") level ign item; Ok [ls] else Ok [])
    (@Err (list (list str)) AttributeError)
    (@nil (list str)) (PUnbound, PUnbound, PUnbound, PUnbound, PUnbound, PUnbound, PUnbound, PUnbound) HCF HCP HR.
  - intros l ->. specialize (HG l eq_refl) as HC. apply fits_children in HF.
    rewrite Forall_forall in HC, HF |- *. intros n HI acc [[[[[[[item cl] nd] md] ic] bc] fl] rl]. specialize (HC n HI). specialize (HF n HI). py.
    rewrite type1. py. destruct (is_type_of n [s "listItem"]); py; [|eexists (_, _, _, _, _, _, _, _); left; rewrite app_nil_r; reflexivity].
    unfold item_lines. set (ci := n_content n) in *. assert (HCP' : proper_slot ci) by (apply fits_proper; exact HF).
    assert (ci = NoField \/ has_field ci) as [HN|HCF']; [destruct ci; [now left|right; discriminate..]|rewrite HN; cbn [slot_value]; py; eexists; reflexivity|].
    rewrite (get_slot PNs ci HCF'). py. rewrite freeze_slot.
    set (lines := map pstr (List.concat (map (bullet_item level) acc))). set (self := PN (Node KbulletList ty ve tx a (Items l) ma)).
    the_loop ci (fun acc (j : pv * pv) => [("self", self); ("level", PV (VInt (Z.of_nat level))); ("ignore_error", PV (VBool ign));
         ("lines", PL true lines);
         ("indent", PV (VStr (repeat_nat (s "    ") level))); ("item", PN n); ("content_lines", PL true (map PV acc)); ("node", fst j); ("md", snd j); ("e", PUnbound); ("item_content", ic);
         ("bullet_content", bc); ("first_line", fl); ("remaining_lines", rl)])
      (fun nd : node => if is_type_of nd [s "bulletList"] then try_ ign (to_md E nd (Some (S level)) false)
                        else try_ ign (do v <- to_md E nd None false; rstrip_value v))
      (@Err (list value) AttributeError) (@nil value) (nd, md) HCF' HCP' HR.
    + intros l2 HL2. pose proof (kids_at E _ (S (S (S k))) _ HC ltac:(lia) l2 HL2) as HC2. revert HC2. apply Forall_impl. intros n2 HN2 acc2 [nd2 md2]. cbn [fst snd].
      py. rewrite type1. py. destruct (is_type_of n2 [s "bulletList"]); py.
      * rewrite (child_lv _ _ _ HN2). destruct (to_md E n2 (Some (S level)) false) as [v|e]; cbn [rmap rbind try_]; py.
        -- eexists (_, _). left. rewrite map_app. reflexivity.
        -- destruct ign; py; [eexists (_, _); left; rewrite app_nil_r; reflexivity|eexists; reflexivity].
      * rewrite (child0 _ _ _ HN2). destruct (to_md E n2 None false) as [v|e]; cbn [rmap rbind try_]; py.
        -- destruct v; cbn [rstrip_value try_]; try (rewrite rstrip_other by exact I; py; destruct ign; py; [eexists (_, _); left; rewrite app_nil_r; reflexivity|eexists; reflexivity]).
           py. eexists (_, _). left. rewrite map_app. reflexivity.
        -- destruct ign; py; [eexists (_, _); left; rewrite app_nil_r; reflexivity|eexists; reflexivity].
    + intros x acc2 [nd2 md2]. py. eexists; reflexivity.
    + destruct (loop ci _ _) as [xs|e]; [|destruct HR as [en HR]; rewrite HR; eexists; reflexivity]. destruct HR as [[nd2 md2] HR]. rewrite HR. clear HR.
      py. rewrite as_strs_pv. cbn [app rbind]. unfold join_values. destruct (mapM as_str xs) as [ys|e]; cbn [rbind]; [|py; eexists; reflexivity].
      py. change (split_on NL (join nl ys)) with (split_on 10%N (join [10%N] ys)). destruct (split_nonempty (join [10%N] ys)) as (h & t & HS). change NL with 10%N in HS. rewrite HS.
      rewrite first_run. py. rewrite HS. rewrite rest_run. py.
      subst lines. destruct t as [|t0 t]; py.
      all: eexists (_, _, _, _, _, _, _, _); left; rewrite lines_app, <- ?app_assoc; reflexivity.
  - intros x acc [[[[[[[item cl] nd] md] ic] bc] fl] rl]. py. eexists; reflexivity.
  - destruct (loop co _ _) as [xs|e]; [|destruct HR as [en HR]; rewrite HR; reflexivity]. destruct HR as [[[[[[[[item cl] nd] md] ic] bc] fl] rl] HR]. rewrite HR.
    py. cbn [app rbind]. rewrite strs_run. reflexivity.
Qed.
End Lists.
