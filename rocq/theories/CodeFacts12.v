(** Running the source text (RepoCode.v): ordered lists. *)
From Coq Require Import List NArith ZArith Bool String Lia.
From Verif Require Import PyStr Values Schema Parse Date Markdown Basics StrFacts PySyntax PySem RepoCode CodeFacts CodeFacts2 CodeFacts3 CodeFacts4 CodeFacts5 CodeFacts9 CodeFacts10 CodeFacts11.
Import ListNotations.
Open Scope string_scope.
Open Scope list_scope.


Section Ordered.
Variable E : runtime.
Notation CL k := (call E repo node_cls mark_cls k).
Definition is_num (v : value) : Prop := match v with VInt _ | VBool _ => True | _ => False end.
(** current_num after [i] items. *)
Definition num (start : value) (i : nat) : value :=
  match i with
  | O => start
  | _ => VInt ((match start with VInt z => z | VBool b => if b then 1 else 0 | _ => 1 end) + Z.of_nat i)
  end.
Lemma num_text start i : is_num start -> py_str E (num start i) = ol_number start i.
Proof. intros H. destruct start; try contradiction; destruct i; cbn [num py_str ol_number]; try reflexivity. now rewrite Z.add_0_r. Qed.
Lemma num_next start i : is_num start -> arith Add (PV (num start i)) (PV (VInt 1)) = Val (PV (num start (S i))).
Proof.
  intros H. destruct start; try contradiction; destruct i; cbn [num arith int_of]; f_equal; f_equal; f_equal; rewrite ?Nat2Z.inj_succ; try lia.
  all: try (destruct b; reflexivity). all: try reflexivity.
Qed.
Lemma ordered_app level start items x : forall i,
  map pstr (ordered_items level start i (items ++ [x])) = map pstr (ordered_items level start i items) ++ map pstr (ordered_item level start (i + List.length items) x).
Proof.
  induction items as [|y items IH]; intros i.
  - cbn [app ordered_items List.length map]. now rewrite app_nil_r, Nat.add_0_r.
  - cbn [app ordered_items List.length]. rewrite map_app, IH, map_app, app_assoc. do 3 f_equal. lia.
Qed.
Definition ordered_rest := skipn 3 (f_body m_NodeOrderedList_to_markdown).
Lemma ordered_loop k start level ign ty ve tx a co ma : is_num start -> has_field co -> proper_slot co -> (forall l, co = Items l -> Forall fits l) ->
  (forall l, co = Items l -> Forall (fun c => kids_ok E (S (S k)) (n_content c)) l) ->
  match exec_block E repo node_cls mark_cls (CL (S (S (S k)))) ordered_rest
     [("self", PN (Node KorderedList ty ve tx a co ma)); ("level", PV (VInt (Z.of_nat level))); ("ignore_error", PV (VBool ign));
         ("lines", PL true []);
         ("indent", PV (VStr (repeat_nat (s "    ") level))); ("current_num", PV start); ("item", PUnbound); ("content_lines", PUnbound); ("node", PUnbound); ("md", PUnbound); ("e", PUnbound); ("item_content", PUnbound);
         ("first_content", PUnbound); ("first_line", PUnbound); ("remaining_lines", PUnbound)]
  with
  | Some (_, Next) => Val (PV VNone)
  | Some (_, Ret v) => Val v
  | Some (_, Rais e) => Exc e
  | _ => Wrong
  end = of_res (rmap PV (do items <- list_items (to_md E) (s "orderedList") co level ign; Ok (VStr (join nl (ordered_items level start 0 items))))).
Proof.
  intros HS0 HCF HCP HF HG. unfold ordered_rest. cbn [f_body m_NodeOrderedList_to_markdown skipn]. py. cbn [n_content]. rewrite (get_slot PNs co HCF). py. rewrite freeze_slot. unfold list_items.
  the_loop co (fun acc (j : pv * pv * pv * pv * pv * pv * pv * pv) => let '(item, cl, nd, md, ic, bc, fl, rl) := j in
       [("self", PN (Node KorderedList ty ve tx a co ma)); ("level", PV (VInt (Z.of_nat level))); ("ignore_error", PV (VBool ign));
         ("lines", PL true (map pstr (ordered_items level start 0 acc)));
         ("indent", PV (VStr (repeat_nat (s "    ") level))); ("current_num", PV (num start (List.length acc))); ("item", item); ("content_lines", cl); ("node", nd); ("md", md); ("e", PUnbound); ("item_content", ic);
         ("first_content", bc); ("first_line", fl); ("remaining_lines", rl)])
    (fun item : node => if is_type_of item [s "listItem"] then do ls <- item_lines (to_md E) (s "orderedList") level ign item; Ok [ls] else Ok [])
    (@Err (list (list str)) AttributeError)
    (@nil (list str)) (PUnbound, PUnbound, PUnbound, PUnbound, PUnbound, PUnbound, PUnbound, PUnbound) HCF HCP HR.
  - intros l ->. specialize (HG l eq_refl) as HC. specialize (HF l eq_refl).
    rewrite Forall_forall in HC, HF |- *. intros n HI acc [[[[[[[item cl] nd] md] ic] bc] fl] rl]. specialize (HC n HI). specialize (HF n HI). py.
    rewrite type1. py. destruct (is_type_of n [s "listItem"]); py; [|eexists (_, _, _, _, _, _, _, _); left; rewrite app_nil_r; reflexivity].
    unfold item_lines. set (ci := n_content n) in *. assert (HCP' : proper_slot ci) by (apply fits_proper; exact HF).
    assert (ci = NoField \/ has_field ci) as [HN|HCF']; [destruct ci; [now left|right; discriminate..]|rewrite HN; cbn [slot_value]; py; eexists; reflexivity|].
    rewrite (get_slot PNs ci HCF'). py. rewrite freeze_slot.
    set (cnt := List.length acc). set (lines := map pstr (ordered_items level start 0 acc)). set (self := PN (Node KorderedList ty ve tx a (Items l) ma)).
    the_loop ci (fun acc (j : pv * pv) => [("self", self); ("level", PV (VInt (Z.of_nat level))); ("ignore_error", PV (VBool ign));
         ("lines", PL true lines);
         ("indent", PV (VStr (repeat_nat (s "    ") level))); ("current_num", PV (num start (cnt))); ("item", PN n); ("content_lines", PL true (map PV acc)); ("node", fst j); ("md", snd j); ("e", PUnbound); ("item_content", ic);
         ("first_content", bc); ("first_line", fl); ("remaining_lines", rl)])
      (fun nd : node => if is_type_of nd [s "orderedList"] then try_ ign (to_md E nd (Some (S level)) false)
                        else try_ ign (do v <- to_md E nd None false; rstrip_value v))
      (@Err (list value) AttributeError) (@nil value) (nd, md) HCF' HCP' HR.
    + intros l2 HL2. pose proof (kids_at E _ (S (S (S k))) _ HC ltac:(lia) l2 HL2) as HC2. revert HC2. apply Forall_impl. intros n2 HN2 acc2 [nd2 md2]. cbn [fst snd].
      py. rewrite type1. py. destruct (is_type_of n2 [s "orderedList"]); py.
      * rewrite (child_lv E _ _ _ HN2). destruct (to_md E n2 (Some (S level)) false) as [v|e]; cbn [rmap rbind try_]; py.
        -- eexists (_, _). left. rewrite map_app. reflexivity.
        -- destruct ign; py; [eexists (_, _); left; rewrite app_nil_r; reflexivity|eexists; reflexivity].
      * rewrite (child0 _ _ _ HN2). destruct (to_md E n2 None false) as [v|e]; cbn [rmap rbind try_]; py.
        -- destruct v; cbn [rstrip_value try_]; try (rewrite rstrip_other by exact I; py; destruct ign; py; [eexists (_, _); left; rewrite app_nil_r; reflexivity|eexists; reflexivity]).
           py. eexists (_, _). left. rewrite map_app. reflexivity.
        -- destruct ign; py; [eexists (_, _); left; rewrite app_nil_r; reflexivity|eexists; reflexivity].
    + intros x acc2 [nd2 md2]. py. eexists; reflexivity.
    + destruct (loop ci _ _) as [xs|e]; [|destruct HR as [en HR]; rewrite HR; eexists; reflexivity]. destruct HR as [[nd2 md2] HR]. rewrite HR. clear HR.
      py. rewrite as_strs_pv. cbn [app rbind]. unfold join_values. destruct (mapM as_str xs) as [ys|e]; cbn [rbind]; [|py; eexists; reflexivity].
      py. change (split_on NL (join nl ys)) with (split_on 10%N (join [10%N] ys)). destruct (split_nonempty (join [10%N] ys)) as (h & t & HS). change NL with 10%N in HS. rewrite HS.
      rewrite first_run. py. rewrite HS. rewrite rest_run. py.
      subst lines. destruct t as [|t0 t]; py.
      all: rewrite (num_next start cnt HS0); py; eexists (_, _, _, _, _, _, _, _); left; rewrite ordered_app, app_length, Nat.add_1_r, <- ?app_assoc; unfold ordered_item; rewrite <- (num_text start _ HS0), <- ?app_assoc; reflexivity.
  - intros x acc [[[[[[[item cl] nd] md] ic] bc] fl] rl]. py. eexists; reflexivity.
  - destruct (loop co _ _) as [xs|e]; [|destruct HR as [en HR]; rewrite HR; reflexivity]. destruct HR as [[[[[[[[item cl] nd] md] ic] bc] fl] rl] HR]. rewrite HR.
    py. cbn [app rbind]. rewrite strs_run. reflexivity.
Qed.
End Ordered.
