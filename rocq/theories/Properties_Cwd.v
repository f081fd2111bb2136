(** C86: the working directory in the helpers that run tests.  Vocabulary: SpecCwd.v. *)
From Coq Require Import List NArith Bool String Arith Lia.
From Verif Require Import PyStr Basics StrFacts Cwd SpecCwd.
Import ListNotations.
Open Scope string_scope.
Open Scope list_scope.
Open Scope nat_scope.

Lemma dir_eqb_eq a b : dir_eqb a b = true <-> a = b.
Proof.
  revert b. induction a as [|x a IH]; intros [|y b]; cbn [dir_eqb]; [easy|easy|easy|]. rewrite andb_true_iff, IH. split; [intros [H ->]; apply str_eqb_eq in H as ->; reflexivity|intros [= -> ->]; now rewrite str_eqb_refl].
Qed.
Lemma isdir_iff ds d : isdir ds d = true <-> In d ds.
Proof. unfold isdir. rewrite existsb_exists. split; [intros (x & HI & H); apply dir_eqb_eq in H; now subst|intros H; exists d; split; [exact H|now apply dir_eqb_eq]]. Qed.
Lemma isdir_not ds d : isdir ds d = false <-> ~ In d ds.
Proof. rewrite <- isdir_iff. destruct (isdir ds d); split; congruence. Qed.
Lemma walk_iff ds l : forall d d', walk ds d l = Some d' <-> leads ds d l d'.
Proof.
  induction l as [|x r IH]; intros d d'; cbn [walk].
  - destruct (isdir ds d) eqn:HD; [apply isdir_iff in HD|apply isdir_not in HD]; split; intros H; [injection H as <-; apply leads_here; exact HD|inversion H; reflexivity|discriminate H|inversion H; subst; contradiction].
  - destruct (isdir ds d) eqn:HD; [apply isdir_iff in HD|apply isdir_not in HD].
    2:{ split; intros H; [discriminate H|inversion H; contradiction]. }
    destruct (str_eqb x [] || str_eqb x (s ".")) eqn:E1.
    + apply orb_true_iff in E1. rewrite !str_eqb_eq in E1. rewrite IH. split; [intros H; now apply leads_stay|]. intros H. inversion H; subst; try assumption; destruct E1 as [E1|E1]; try discriminate E1; contradiction.
    + apply orb_false_iff in E1 as [E1 E2]. rewrite str_eqb_neq in E1, E2. destruct (str_eqb x (s "..")) eqn:E3.
      * apply str_eqb_eq in E3 as ->. rewrite IH. split; [intros H; now apply leads_up|]. intros H. inversion H as [|? ? ? ? ? HX| |]; subst; [destruct HX; discriminate|assumption|contradiction].
      * rewrite str_eqb_neq in E3. rewrite IH. split; [intros H; now apply leads_down|]. intros H. inversion H as [|? ? ? ? ? HX| |]; subst; [destruct HX; contradiction|contradiction|assumption].
Qed.
Lemma goes_iff ds here p d : goes_to ds here p = Some d <-> path_leads ds here p d.
Proof.
  unfold goes_to. rewrite walk_iff. unfold path_leads. assert (HA : match names p with [] :: _ :: _ => absolute p = true | _ => absolute p = false end).
  { unfold names, absolute. pose proof (join_split 47%N p) as HJ. destruct (split_on 47 p) as [|[|c x] [|y r]] eqn:ES.
    - now apply split_on_nonnil in ES.
    - now rewrite <- HJ.
    - rewrite <- HJ. reflexivity.
    - pose proof (split_on_free 47%N p) as HF. rewrite ES in HF. inversion HF as [|? ? HC _]; subst. cbn [join]. change (s "/") with [47%N]. cbn [prefixb]. rewrite andb_true_r. apply N.eqb_neq. intros <-. apply HC. now left.
    - pose proof (split_on_free 47%N p) as HF. rewrite ES in HF. pose proof (Forall_inv HF) as HC. clear ES. rewrite <- HJ. change (join [47%N] ((c :: x) :: y :: r)) with ((c :: x) ++ [47%N] ++ join [47%N] (y :: r)). change ((c :: x) ++ [47%N] ++ join [47%N] (y :: r)) with (c :: x ++ [47%N] ++ join [47%N] (y :: r)). change (s "/") with [47%N]. cbn [prefixb]. rewrite andb_true_r. apply N.eqb_neq. intros <-. apply HC. now left. }
  split.
  - intros H. exists (names p). split; [apply split_on_nonnil|]. split; [apply split_on_free|]. split; [apply join_split|]. destruct (names p) as [|[|] [|]]; rewrite HA in H; exact H.
  - intros (l & H1 & H2 & H3 & H4). assert (HN : names p = l) by (rewrite <- H3; now apply split_join_free). rewrite HN in *. destruct l as [|[|] [|]]; rewrite HA; exact H4.
Qed.

Section Command.
Variable command : dir -> list str -> list dir -> list dir * option str.
Notation exec := (exec command).

(** However a block ends, the directory is the one before it, if that still exists. *)
Theorem C86_restored : forall path p w w' o, exec (Temp path p) w = (w', o) -> In (cwd w) (dirs w') -> cwd w' = cwd w.
Proof.
  intros path p w w' o H HI. cbn [Cwd.exec] in H. destruct (isdir (dirs w) (cwd w)); [|injection H as <- _; reflexivity]. destruct (goes_to _ _ _) as [d|]; [|injection H as <- _; reflexivity].
  destruct (exec p (World d (dirs w) (log w))) as [w1 o1]. destruct (isdir (dirs w1) (cwd w)) eqn:HD; [injection H as <- _; reflexivity|]. injection H as <- _. apply isdir_not in HD. contradiction.
Qed.
(** The body runs in the directory of the path; what it does, and whether and which exception it raises, comes through. *)
Theorem C86_body : forall path p w d w1 o, In (cwd w) (dirs w) -> path_leads (dirs w) (cwd w) path d ->
  exec p (World d (dirs w) (log w)) = (w1, o) -> In (cwd w) (dirs w1) -> exec (Temp path p) w = (World (cwd w) (dirs w1) (log w1), o).
Proof. intros path p w d w1 o HI HP HE HW. cbn [Cwd.exec]. apply isdir_iff in HI. rewrite HI. apply goes_iff in HP. rewrite HP, HE. apply isdir_iff in HW. now rewrite HW. Qed.
(** A path that leads nowhere: an exception, and nothing has happened. *)
Theorem C86_no_directory : forall path p w, (forall d, ~ path_leads (dirs w) (cwd w) path d) -> exec (Temp path p) w = (w, Some (s "FileNotFoundError")).
Proof.
  intros path p w H. cbn [Cwd.exec]. destruct (isdir _ _); [|reflexivity]. destruct (goes_to (dirs w) (cwd w) path) as [d|] eqn:EG; [|reflexivity]. apply goes_iff in EG. now destruct (H d).
Qed.
(** The directory removed meanwhile: an exception, which replaces the one of the body. *)
Theorem C86_removed : forall path p w d w1 o, In (cwd w) (dirs w) -> path_leads (dirs w) (cwd w) path d ->
  exec p (World d (dirs w) (log w)) = (w1, o) -> ~ In (cwd w) (dirs w1) -> exec (Temp path p) w = (w1, Some (s "FileNotFoundError")).
Proof. intros path p w d w1 o HI HP HE HW. cbn [Cwd.exec]. apply isdir_iff in HI. rewrite HI. apply goes_iff in HP. rewrite HP, HE. apply isdir_not in HW. now rewrite HW. Qed.

Lemma keeps p : tame command -> keeps_dirs p -> forall w w' o, exec p w = (w', o) -> forall x, In x (dirs w) -> In x (dirs w').
Proof.
  intros HT. induction p as [|p IHp q IHq|e|p IH|path|n|n|args|path p IH]; cbn [keeps_dirs]; intros HK w w' o H x HX; cbn [Cwd.exec] in H; try (injection H as <- _; exact HX).
  - destruct HK as [HK1 HK2]. destruct (exec p w) as [w1 [e|]] eqn:E1; [injection H as <- _; exact (IHp HK1 _ _ _ E1 x HX)|]. exact (IHq HK2 _ _ _ H x (IHp HK1 _ _ _ E1 x HX)).
  - destruct (exec p w) as [w1 o1] eqn:E1. injection H as <- _. exact (IH HK _ _ _ E1 x HX).
  - destruct (goes_to _ _ _); injection H as <- _; exact HX.
  - destruct (isdir _ _); injection H as <- _; [right; exact HX|exact HX].
  - destruct HK.
  - pose proof (HT (cwd w) args (dirs w) x HX) as HC. destruct (command _ _ _) as [ds o1]. injection H as <- _. exact HC.
  - destruct (isdir _ (cwd w)); [|injection H as <- _; exact HX]. destruct (goes_to _ _ _) as [d|]; [|injection H as <- _; exact HX].
    destruct (exec p _) as [w1 o1] eqn:E1. pose proof (IH HK _ _ _ E1 x HX) as HC. destruct (isdir (dirs w1) _); injection H as <- _; exact HC.
Qed.
(** Any nesting: a program that changes the directory only within blocks leaves it as it was, whatever happens within them, exceptions included. *)
Theorem C86_nested : forall p w w' o, tame command -> keeps_dirs p -> careful p -> In (cwd w) (dirs w) -> exec p w = (w', o) -> cwd w' = cwd w /\ In (cwd w') (dirs w').
Proof.
  intros p w w' o HT HK HC HI H. assert (HCW : cwd w' = cwd w); [|split; [exact HCW|rewrite HCW; exact (keeps p HT HK w w' o H _ HI)]]. revert w w' o HK HC HI H.
  induction p as [|p IHp q IHq|e|p IH|path|n|n|args|path p IH]; cbn [keeps_dirs careful]; intros w w' o HK HC HI H; try (cbn [Cwd.exec] in H; injection H as <- _; reflexivity); try contradiction.
  - cbn [Cwd.exec] in H. destruct HK as [HK1 HK2], HC as [HC1 HC2]. destruct (exec p w) as [w1 [e|]] eqn:E1; [injection H as <- _; exact (IHp _ _ _ HK1 HC1 HI E1)|].
    pose proof (IHp _ _ _ HK1 HC1 HI E1) as HW. rewrite <- HW. apply (IHq _ _ _ HK2 HC2) with (2 := H). rewrite HW. exact (keeps p HT HK1 _ _ _ E1 _ HI).
  - cbn [Cwd.exec] in H. destruct (exec p w) as [w1 o1] eqn:E1. injection H as <- _. exact (IH _ _ _ HK HC HI E1).
  - cbn [Cwd.exec] in H. destruct (isdir _ _); injection H as <- _; reflexivity.
  - cbn [Cwd.exec] in H. destruct (command _ _ _) as [ds o1]. injection H as <- _. reflexivity.
  - apply (C86_restored _ _ _ _ _ H). exact (keeps (Temp path p) HT HK _ _ _ H _ HI).
Qed.

(** ---------------------------------------------------------------- the helpers *)
Section Helpers.
Variables executable platform : str.
(** Running a test: one command, in the root directory; afterwards the directory is what it was, also if the command raises. *)
Theorem C86_unit_test : forall script root w d ds o, In (cwd w) (dirs w) -> path_leads (dirs w) (cwd w) root d ->
  let args := [pytest executable; s "-s"; s "--tb=native"; script] in
  command d args (dirs w) = (ds, o) -> In (cwd w) ds -> exec (run_unit_test executable script root) w = (World (cwd w) ds (log w ++ [(d, args)]), o).
Proof. intros script root w d ds o HI HP args HC HW. apply (C86_body root (Start args) w d (World d ds (log w ++ [(d, args)])) o HI HP); [|exact HW]. cbn [Cwd.exec cwd dirs log]. now rewrite HC. Qed.
(** Coverage: the same with these arguments, and then, without an exception and if it is asked for, the report is opened from the directory of the caller. *)
Theorem C86_cov_test : forall script module root html (preview is_folder : bool) w d ds o, In (cwd w) (dirs w) -> path_leads (dirs w) (cwd w) root d ->
  let args := [pytest executable; s "-s"; s "--tb=native"; s "--rootdir=" ++ root; s "--cov=" ++ without_py module; s "--cov-report"; s "term-missing"; s "--cov-report"; s "html:" ++ html;
               if is_folder then parent script else script] in
  command d args (dirs w) = (ds, o) -> In (cwd w) ds ->
  let w1 := World (cwd w) ds (log w ++ [(d, args)]) in
  exec (run_cov_test executable platform script module root html preview is_folder) w =
    match o, preview with
    | Some e, _ => (w1, Some e)
    | None, false => (w1, None)
    | None, true =>
        let open_with (x : str) := let a := [x; below_dir html (s "index.html")] in (World (cwd w) (fst (command (cwd w) a ds)) (log w ++ [(d, args); (cwd w, a)]), snd (command (cwd w) a ds)) in
        if existsb (str_eqb platform) [s "win32"; s "cygwin"] then open_with (s "start")
        else if existsb (str_eqb platform) [s "darwin"; s "linux"] then open_with (s "open") else (w1, Some (s "NotImplementedError"))
    end.
Proof.
  intros script module root html preview is_folder w d ds o HI HP args HC HW w1. unfold run_cov_test. cbn [Cwd.exec].
  assert (HB : exec (Temp root (Start args)) w = (w1, o)) by (apply (C86_body root (Start args) w d (World d ds (log w ++ [(d, args)])) o HI HP); [cbn [Cwd.exec cwd dirs log]; now rewrite HC|exact HW]).
  change (Temp root (Start (cov_args executable script module root html is_folder))) with (Temp root (Start args)). cbn [Cwd.exec] in HB. fold args. 
  match type of HB with ?x = _ => match goal with |- (let '(_, _) := ?y in _) = _ => change y with x; rewrite HB end end.
  destruct o as [e|]; [reflexivity|]. destruct preview; [|reflexivity]. unfold opener. cbn [existsb]. rewrite !orb_false_r.
  destruct (str_eqb platform (s "win32") || str_eqb platform (s "cygwin")); [|destruct (str_eqb platform (s "darwin") || str_eqb platform (s "linux")); [|reflexivity]];
    cbn [Cwd.exec cwd dirs log w1]; destruct (command (cwd w) _ ds); cbn [fst snd]; now rewrite <- app_assoc.
Qed.
(** The helpers of tests/helper.py never leave the process in another directory. *)
Theorem C86_helpers : forall script module root html (preview is_folder : bool) w w' o, tame command -> In (cwd w) (dirs w) ->
  exec (run_unit_test executable script root) w = (w', o) \/ exec (run_cov_test executable platform script module root html preview is_folder) w = (w', o) -> cwd w' = cwd w.
Proof.
  intros script module root html preview is_folder w w' o HT HI [H|H].
  - now apply (C86_nested (run_unit_test executable script root) _ _ _ HT I I HI) in H.
  - apply (C86_nested _ _ _ _ HT) in H; [tauto| | |exact HI]; unfold run_cov_test; cbn [keeps_dirs careful]; destruct preview; try (destruct (opener platform)); repeat split.
Qed.
End Helpers.
End Command.
(** The module may be given as a file: one ".py" at the end is dropped. *)
Theorem C86_module : forall m, without_py (m ++ s ".py") = m /\ ((forall x, m <> x ++ s ".py") -> without_py m = m).
Proof.
  assert (HP : forall p x, prefixb p x = true <-> exists y, x = p ++ y).
  { induction p as [|a p IH]; intros x; [split; [now exists x|reflexivity]|]. destruct x as [|b x]; cbn [prefixb]; [split; [discriminate|intros (y & [=])]|]. rewrite andb_true_iff, N.eqb_eq, IH. split; [intros [-> (y & ->)]; now exists y|intros (y & [= -> ->]); eauto]. }
  intros m. unfold without_py. split.
  - destruct (prefixb (rev (s ".py")) (rev (m ++ s ".py"))) eqn:EP.
    + rewrite app_length. change (List.length (s ".py")) with 3. rewrite Nat.add_sub, firstn_app, Nat.sub_diag, firstn_all. apply app_nil_r.
    + exfalso. apply not_true_iff_false in EP. apply EP, HP. exists (rev m). now rewrite rev_app_distr.
  - intros HN. destruct (prefixb _ _) eqn:EP; [|reflexivity]. apply HP in EP as (y & HY). exfalso. apply (HN (rev y)). rewrite <- (rev_involutive m), HY, rev_app_distr. now rewrite rev_involutive.
Qed.
(** An absolute path with these names. *)
Definition plain (l : list str) : Prop := Forall (fun x => x <> [] /\ x <> s "." /\ ~ In 47%N x) l.
Lemma parts_plain l : plain l -> l <> [] -> parts (s "/" ++ join (s "/") l) = l.
Proof.
  intros H HN. unfold parts, names. change (s "/") with [47%N]. replace ([47%N] ++ join [47%N] l) with (join [47%N] ([] :: l)) by (destruct l; [contradiction|reflexivity]).
  rewrite split_join_free; [|discriminate|constructor; [intros []|]; eapply Forall_impl; [|exact H]; intros x (_ & _ & Hx); exact Hx]. cbn [filter str_eqb orb negb].
  clear HN. induction l as [|x r IH]; [reflexivity|]. inversion H as [|? ? (H1 & H2 & _) H3]; subst. cbn [filter]. apply str_eqb_neq in H1, H2. rewrite H1, H2. cbn [orb negb]. f_equal. now apply IH.
Qed.
(** The folder of a script with an absolute path; pytest is beside the interpreter; the report is in its folder. *)
Theorem C86_folder : forall l file, plain (l ++ [file]) -> parent (s "/" ++ join (s "/") (l ++ [file])) = s "/" ++ join (s "/") l.
Proof.
  intros l file H. unfold parent. rewrite (parts_plain _ H) by (destruct l; discriminate). rewrite removelast_last. replace (absolute _) with true by (destruct l; reflexivity). unfold shown. destruct l; reflexivity.
Qed.
Theorem C86_pytest : forall l file, plain (l ++ [file]) -> pytest (s "/" ++ join (s "/") (l ++ [file])) = s "/" ++ join (s "/") (l ++ [s "pytest"]).
Proof.
  intros l file H. unfold pytest. rewrite (C86_folder l file H). unfold below_dir. replace (absolute _) with true by reflexivity. destruct l as [|x l]; [reflexivity|].
  rewrite parts_plain; [|unfold plain in *; apply Forall_app in H; tauto|discriminate]. reflexivity.
Qed.
Theorem C86_report : forall l, plain l -> below_dir (s "/" ++ join (s "/") l) (s "index.html") = s "/" ++ join (s "/") (l ++ [s "index.html"]).
Proof. intros l H. unfold below_dir. replace (absolute _) with true by reflexivity. destruct l as [|x l]; [reflexivity|]. rewrite (parts_plain _ H) by discriminate. reflexivity. Qed.

(** ---------------------------------------------------------------- threads *)
(** Blocks of several threads: the process ends in the directory that the block left last saw when it was entered. *)
Theorem C86_threads : forall l1 b d l2 here seen, (forall d', ~ In (Enter b d') l2) -> happen (l1 ++ Enter b d :: l2 ++ [Leave b]) here seen = happen l1 here seen.
Proof.
  assert (HL : forall l2 b (hs : dir * (nat -> dir)) v, (forall d', ~ In (Enter b d') l2) -> snd hs b = v -> happen (l2 ++ [Leave b]) (fst hs) (snd hs) = v).
  { induction l2 as [|e l2 IH]; intros b [here seen] v HN HV; [exact HV|]. cbn [app happen fst snd] in *. destruct e as [b' d'|b'].
    - apply (IH b (d', fun x => if Nat.eqb x b' then here else seen x)); [intros d'' HI; apply (HN d''); now right|]. cbn [snd]. destruct (Nat.eqb_spec b b') as [->|]; [destruct (HN d'); now left|exact HV].
    - apply (IH b (seen b', seen)); [intros d'' HI; apply (HN d''); now right|exact HV]. }
  intros l1. induction l1 as [|e l1 IH]; intros b d l2 here seen HN.
  - cbn [app happen]. apply (HL l2 b (d, fun x => if Nat.eqb x b then here else seen x)); [exact HN|]. cbn [snd]. now rewrite Nat.eqb_refl.
  - destruct e as [b' d'|b']; cbn [app happen]; now apply IH.
Qed.
(** So two blocks of two threads that overlap leave the process in the directory of the first. *)
Theorem C86_overlap : forall here d1 d2 seen, happen [Enter 1 d1; Enter 2 d2; Leave 1; Leave 2] here seen = d1 /\ happen [Enter 1 d1; Enter 2 d2; Leave 2; Leave 1] here seen = here.
Proof. split; reflexivity. Qed.

(** ---------------------------------------------------------------- examples *)
Definition ex_home : dir := [s "home"; s "me"].
Definition ex_dirs : list dir := [[]; [s "home"]; ex_home; ex_home ++ [s "a"]; ex_home ++ [s "a"; s "b"]; [s "tmp"]].
Definition ex_cmd (d : dir) (args : list str) (ds : list dir) : list dir * option str := (ds, if existsb (str_eqb (s "boom")) args then Some (s "KeyboardInterrupt") else None).
Example ex_tame : tame ex_cmd. Proof. intros d args ds x H. exact H. Qed.
Example C86_restored_example :
  exec ex_cmd (Temp (s "a/./b/") (Seq (Start [s "x"]) (Seq (Chdir (s "../..")) (Seq (Temp (s "/tmp") (Raise (s "E"))) (Start [s "y"]))))) (World ex_home ex_dirs []) =
    (World ex_home ex_dirs [(ex_home ++ [s "a"; s "b"], [s "x"])], Some (s "E")).
Proof. vm_compute. reflexivity. Qed.
Example C86_no_directory_example : exec ex_cmd (Temp (s "nowhere") (Start [s "x"])) (World ex_home ex_dirs []) = (World ex_home ex_dirs [], Some (s "FileNotFoundError")).
Proof. vm_compute. reflexivity. Qed.
Example C86_removed_example : exec ex_cmd (Temp (s "/tmp") (Rmdir (s "/home/me"))) (World ex_home [[]; [s "home"]; ex_home; [s "tmp"]] []) = (World [s "tmp"] [[]; [s "home"]; [s "tmp"]] [], Some (s "FileNotFoundError")).
Proof. vm_compute. reflexivity. Qed.
Example C86_path_example : path_leads ex_dirs ex_home (s "../me/a") (ex_home ++ [s "a"]).
Proof. apply goes_iff. vm_compute. reflexivity. Qed.
Definition ex_exe : str := s "/home/me/.venv/bin/python".
Example C86_unit_test_example : exec ex_cmd (run_unit_test ex_exe (s "boom") (s "/home/me/a")) (World ex_home ex_dirs []) =
  (World ex_home ex_dirs [(ex_home ++ [s "a"], [s "/home/me/.venv/bin/pytest"; s "-s"; s "--tb=native"; s "boom"])], Some (s "KeyboardInterrupt")).
Proof. vm_compute. reflexivity. Qed.
Example C86_cov_test_example : exec ex_cmd (run_cov_test ex_exe (s "linux") (s "/home/me/a/t.py") (s "m.x.py") (s "/home/me/a") (s "/h/") true true) (World ex_home ex_dirs []) =
  (World ex_home ex_dirs [(ex_home ++ [s "a"], [s "/home/me/.venv/bin/pytest"; s "-s"; s "--tb=native"; s "--rootdir=/home/me/a"; s "--cov=m.x"; s "--cov-report"; s "term-missing"; s "--cov-report"; s "html:/h/"; s "/home/me/a"]);
    (ex_home, [s "open"; s "/h/index.html"])], None).
Proof. vm_compute. reflexivity. Qed.
Definition ex_prog : prog := Seq (Catch (Temp (s "a") (Seq (Chdir (s "b")) (Seq (Mkdir (s "c")) (Raise (s "E")))))) (Seq (Temp (s "nowhere") Skip) (Start [s "never"])).
Example C86_nested_example : careful ex_prog /\ keeps_dirs ex_prog /\ exec ex_cmd ex_prog (World ex_home ex_dirs []) = (World ex_home ((ex_home ++ [s "a"; s "b"; s "c"]) :: ex_dirs) [], Some (s "FileNotFoundError")).
Proof. vm_compute. auto 10. Qed.
Example C86_module_example : without_py (s "a.py.py") = s "a.py" /\ without_py (s "apy") = s "apy" /\ without_py (s "py") = s "py". Proof. vm_compute. auto. Qed.
Example C86_folder_example : plain [s "home"; s "t.py"] /\ parent (s "/home/t.py") = s "/home" /\ parent (s "t.py") = s "." /\ pytest ex_exe = s "/home/me/.venv/bin/pytest".
Proof. split; [|vm_compute; auto]. repeat constructor; try discriminate; vm_compute; intros H; repeat (destruct H as [H|H]; [discriminate H|]); destruct H. Qed.
