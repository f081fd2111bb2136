(** GENERATED by tools/gen_samples.py from /repo/tests/adf_samples/*.json and
    /repo/atlas_doc_parser/tests/data/samples.py.  Tests of the model's fidelity (the
    repository's own fixtures and expected Markdown), not proofs of properties. *)
From Coq Require Import List NArith ZArith Bool String.
From Verif Require Import PyStr Values Schema Parse Serialize Date Markdown.
Import ListNotations.
Open Scope string_scope.
Open Scope list_scope.

Definition rt0 : runtime := Runtime (fun _ => []) (fun x => x) (fun _ => None).

(** helper.py check_markdown: compare the stripped Markdown. *)
Definition renders (v : value) (expected : str) : bool :=
  match parse_node true v with
  | (_, Ok n) => match to_markdown rt0 n false with
                 | Ok (VStr x) => str_eqb (strip x) expected
                 | _ => false
                 end
  | _ => false
  end.

(** helper.py check_seder: re-parsing the serialised object succeeds and serialises to the same. *)
Fixpoint value_eqb (a b : value) {struct a} : bool :=
  match a, b with
  | VNone, VNone | VOpt, VOpt => true
  | VBool x, VBool y => Bool.eqb x y
  | VInt x, VInt y => Z.eqb x y
  | VFloat (FFin m e), VFloat (FFin m' e') => Z.eqb m m' && Z.eqb e e'
  | VStr x, VStr y => str_eqb x y
  | VList l, VList l' =>
      (fix go l l' := match l, l' with
                      | [], [] => true
                      | x :: r, y :: r' => value_eqb x y && go r r'
                      | _, _ => false end) l l'
  | VDict d, VDict d' =>
      (fix go (l l' : list (str * value)) :=
         match l, l' with
         | [], [] => true
         | (k, x) :: r, (k', y) :: r' => str_eqb k k' && value_eqb x y && go r r'
         | _, _ => false end) d d'
  | _, _ => false
  end.
Definition seder (v : value) : bool :=
  match parse_node true v with
  | (_, Ok n) => match node_to_dict n with
                 | Ok v1 => match parse_node true v1 with
                            | (_, Ok n1) => match node_to_dict n1 with
                                            | Ok v2 => value_eqb v1 v2 | _ => false end
                            | _ => false end
                 | _ => false end
  | _ => false
  end.

Example t_mark_background_color : match parse_mark (VDict [((s "type"), VStr (s "backgroundColor")); ((s "attrs"), VDict [((s "color"), VStr (s "#fedec8"))])]) with Ok _ => true | Err _ => false end = true.
Proof. vm_compute. reflexivity. Qed.

Definition v_node_background_colored_text : value := VDict [((s "text"), VStr (s "backgroundColor")); ((s "type"), VStr (s "text")); ((s "marks"), VList [VDict [((s "type"), VStr (s "annotation")); ((s "attrs"), VDict [((s "annotationType"), VStr (s "inlineComment")); ((s "id"), VStr (s "91ea44b3-4301-4fc3-be59-73c8968268df"))])]; VDict [((s "type"), VStr (s "backgroundColor")); ((s "attrs"), VDict [((s "color"), VStr (s "#fedec8"))])]])].

Example seder_node_background_colored_text : seder v_node_background_colored_text = true.
Proof. vm_compute. reflexivity. Qed.

Example md_node_background_colored_text : renders v_node_background_colored_text (s "backgroundColor") = true.
Proof. vm_compute. reflexivity. Qed.

Example t_mark_annotation : match parse_mark (VDict [((s "type"), VStr (s "annotation")); ((s "attrs"), VDict [((s "annotationType"), VStr (s "inlineComment")); ((s "id"), VStr (s "91ea44b3-4301-4fc3-be59-73c8968268df"))])]) with Ok _ => true | Err _ => false end = true.
Proof. vm_compute. reflexivity. Qed.

Example t_mark_code : match parse_mark (VDict [((s "type"), VStr (s "code"))]) with Ok _ => true | Err _ => false end = true.
Proof. vm_compute. reflexivity. Qed.

Definition v_mark_inline_code_text : value := VDict [((s "text"), VStr (s "code")); ((s "type"), VStr (s "text")); ((s "marks"), VList [VDict [((s "type"), VStr (s "annotation")); ((s "attrs"), VDict [((s "annotationType"), VStr (s "inlineComment")); ((s "id"), VStr (s "2797ff66-173e-4d74-9766-f64e85101e52"))])]; VDict [((s "type"), VStr (s "code"))]])].

Example seder_mark_inline_code_text : seder v_mark_inline_code_text = true.
Proof. vm_compute. reflexivity. Qed.

Example md_mark_inline_code_text : renders v_mark_inline_code_text (s "`` code ``") = true.
Proof. vm_compute. reflexivity. Qed.

Example t_mark_em : match parse_mark (VDict [((s "type"), VStr (s "em"))]) with Ok _ => true | Err _ => false end = true.
Proof. vm_compute. reflexivity. Qed.

Definition v_node_italic_text : value := VDict [((s "text"), VStr (s "italic")); ((s "type"), VStr (s "text")); ((s "marks"), VList [VDict [((s "type"), VStr (s "annotation")); ((s "attrs"), VDict [((s "annotationType"), VStr (s "inlineComment")); ((s "id"), VStr (s "11e11989-515d-4776-a469-39efb8acf991"))])]; VDict [((s "type"), VStr (s "em"))]])].

Example seder_node_italic_text : seder v_node_italic_text = true.
Proof. vm_compute. reflexivity. Qed.

Example md_node_italic_text : renders v_node_italic_text (s "*italic*") = true.
Proof. vm_compute. reflexivity. Qed.

Example t_mark_link : match parse_mark (VDict [((s "type"), VStr (s "link")); ((s "attrs"), VDict [((s "href"), VStr (s "https://example.com"))])]) with Ok _ => true | Err _ => false end = true.
Proof. vm_compute. reflexivity. Qed.

Example t_mark_strike : match parse_mark (VDict [((s "type"), VStr (s "strike"))]) with Ok _ => true | Err _ => false end = true.
Proof. vm_compute. reflexivity. Qed.

Definition v_node_strike_text : value := VDict [((s "text"), VStr (s "strike")); ((s "type"), VStr (s "text")); ((s "marks"), VList [VDict [((s "type"), VStr (s "annotation")); ((s "attrs"), VDict [((s "annotationType"), VStr (s "inlineComment")); ((s "id"), VStr (s "f83f0976-6732-4067-b224-405e07196142"))])]; VDict [((s "type"), VStr (s "strike"))]])].

Example seder_node_strike_text : seder v_node_strike_text = true.
Proof. vm_compute. reflexivity. Qed.

Example md_node_strike_text : renders v_node_strike_text (s "~~strike~~") = true.
Proof. vm_compute. reflexivity. Qed.

Example t_mark_strong : match parse_mark (VDict [((s "type"), VStr (s "strong"))]) with Ok _ => true | Err _ => false end = true.
Proof. vm_compute. reflexivity. Qed.

Definition v_node_strong_text : value := VDict [((s "text"), VStr (s "strong")); ((s "type"), VStr (s "text")); ((s "marks"), VList [VDict [((s "type"), VStr (s "annotation")); ((s "attrs"), VDict [((s "annotationType"), VStr (s "inlineComment")); ((s "id"), VStr (s "95372fca-a9d5-4ebe-933b-3aba25e05d5d"))])]; VDict [((s "type"), VStr (s "strong"))]])].

Example seder_node_strong_text : seder v_node_strong_text = true.
Proof. vm_compute. reflexivity. Qed.

Example md_node_strong_text : renders v_node_strong_text (s "**strong**") = true.
Proof. vm_compute. reflexivity. Qed.

Example t_mark_sub : match parse_mark (VDict [((s "type"), VStr (s "subsup")); ((s "attrs"), VDict [((s "type"), VStr (s "sub"))])]) with Ok _ => true | Err _ => false end = true.
Proof. vm_compute. reflexivity. Qed.

Example t_mark_sup : match parse_mark (VDict [((s "type"), VStr (s "subsup")); ((s "attrs"), VDict [((s "type"), VStr (s "sup"))])]) with Ok _ => true | Err _ => false end = true.
Proof. vm_compute. reflexivity. Qed.

Definition v_node_sub_text : value := VDict [((s "text"), VStr (s "sub")); ((s "type"), VStr (s "text")); ((s "marks"), VList [VDict [((s "type"), VStr (s "annotation")); ((s "attrs"), VDict [((s "annotationType"), VStr (s "inlineComment")); ((s "id"), VStr (s "6b9a8698-56bd-4801-859d-7ec5fb2452e6"))])]; VDict [((s "type"), VStr (s "subsup")); ((s "attrs"), VDict [((s "type"), VStr (s "sub"))])]])].

Example seder_node_sub_text : seder v_node_sub_text = true.
Proof. vm_compute. reflexivity. Qed.

Example md_node_sub_text : renders v_node_sub_text (s "sub") = true.
Proof. vm_compute. reflexivity. Qed.

Definition v_node_sup_text : value := VDict [((s "text"), VStr (s "sup")); ((s "type"), VStr (s "text")); ((s "marks"), VList [VDict [((s "type"), VStr (s "annotation")); ((s "attrs"), VDict [((s "annotationType"), VStr (s "inlineComment")); ((s "id"), VStr (s "6b9a8698-56bd-4801-859d-7ec5fb2452e6"))])]; VDict [((s "type"), VStr (s "subsup")); ((s "attrs"), VDict [((s "type"), VStr (s "sup"))])]])].

Example seder_node_sup_text : seder v_node_sup_text = true.
Proof. vm_compute. reflexivity. Qed.

Example md_node_sup_text : renders v_node_sup_text (s "sup") = true.
Proof. vm_compute. reflexivity. Qed.

Example t_mark_text_color : match parse_mark (VDict [((s "type"), VStr (s "textColor")); ((s "attrs"), VDict [((s "color"), VStr (s "#ff5630"))])]) with Ok _ => true | Err _ => false end = true.
Proof. vm_compute. reflexivity. Qed.

Definition v_node_colored_text : value := VDict [((s "text"), VStr (s "colored")); ((s "type"), VStr (s "text")); ((s "marks"), VList [VDict [((s "type"), VStr (s "annotation")); ((s "attrs"), VDict [((s "annotationType"), VStr (s "inlineComment")); ((s "id"), VStr (s "f2a5d076-0b55-4d77-84b0-47e74978b96b"))])]; VDict [((s "type"), VStr (s "textColor")); ((s "attrs"), VDict [((s "color"), VStr (s "#ff5630"))])]])].

Example seder_node_colored_text : seder v_node_colored_text = true.
Proof. vm_compute. reflexivity. Qed.

Example md_node_colored_text : renders v_node_colored_text (s "colored") = true.
Proof. vm_compute. reflexivity. Qed.

Example t_mark_underline : match parse_mark (VDict [((s "type"), VStr (s "underline"))]) with Ok _ => true | Err _ => false end = true.
Proof. vm_compute. reflexivity. Qed.

Definition v_node_underline_text : value := VDict [((s "text"), VStr (s "underline")); ((s "type"), VStr (s "text")); ((s "marks"), VList [VDict [((s "type"), VStr (s "annotation")); ((s "attrs"), VDict [((s "annotationType"), VStr (s "inlineComment")); ((s "id"), VStr (s "e24592b3-703d-408d-bb61-306549d82557"))])]; VDict [((s "type"), VStr (s "underline"))]])].

Example seder_node_underline_text : seder v_node_underline_text = true.
Proof. vm_compute. reflexivity. Qed.

Example md_node_underline_text : renders v_node_underline_text (s "underline") = true.
Proof. vm_compute. reflexivity. Qed.

Definition v_node_text : value := VDict [((s "text"), VStr (s "this is a text.")); ((s "type"), VStr (s "text"))].

Example seder_node_text : seder v_node_text = true.
Proof. vm_compute. reflexivity. Qed.

Example md_node_text : renders v_node_text (s "this is a text.") = true.
Proof. vm_compute. reflexivity. Qed.

Definition v_node_rule : value := VDict [((s "type"), VStr (s "rule")); ((s "attrs"), VDict [((s "localId"), VStr (s "cef2b6cb-edcc-4a9c-8ccc-0400d811a9dd"))])].

Example seder_node_rule : seder v_node_rule = true.
Proof. vm_compute. reflexivity. Qed.

Example md_node_rule : renders v_node_rule (s "---") = true.
Proof. vm_compute. reflexivity. Qed.

Definition v_node_bullet_list : value := VDict [((s "type"), VStr (s "bulletList")); ((s "attrs"), VDict [((s "localId"), VStr (s "75e6c236-c975-45ef-bfba-2830ca6ac492"))]); ((s "content"), VList [VDict [((s "type"), VStr (s "listItem")); ((s "attrs"), VDict [((s "localId"), VStr (s "fa6929ae-fda2-44b4-9ec9-1a3d362eed57"))]); ((s "content"), VList [VDict [((s "type"), VStr (s "paragraph")); ((s "attrs"), VDict [((s "localId"), VStr (s "a482d172-84f8-494b-a9b1-c04af3227167"))]); ((s "content"), VList [VDict [((s "text"), VStr (s "item ")); ((s "type"), VStr (s "text"))]; VDict [((s "text"), VStr (s "1")); ((s "type"), VStr (s "text")); ((s "marks"), VList [VDict [((s "type"), VStr (s "strong"))]])]])]; VDict [((s "type"), VStr (s "bulletList")); ((s "attrs"), VDict [((s "localId"), VStr (s "723e4215-2058-458a-8be1-f28e65ad37b0"))]); ((s "content"), VList [VDict [((s "type"), VStr (s "listItem")); ((s "attrs"), VDict [((s "localId"), VStr (s "b67c3a2c-c329-407d-8750-120c91e7d8bb"))]); ((s "content"), VList [VDict [((s "type"), VStr (s "paragraph")); ((s "attrs"), VDict [((s "localId"), VStr (s "99a3e4e8-af2b-40e7-a584-1c4e84641c58"))]); ((s "content"), VList [VDict [((s "text"), VStr (s "item ")); ((s "type"), VStr (s "text"))]; VDict [((s "text"), VStr (s "1.1")); ((s "type"), VStr (s "text")); ((s "marks"), VList [VDict [((s "type"), VStr (s "strong"))]])]])]; VDict [((s "type"), VStr (s "bulletList")); ((s "attrs"), VDict [((s "localId"), VStr (s "d6491330-4ce5-4581-b77e-369fab061a03"))]); ((s "content"), VList [VDict [((s "type"), VStr (s "listItem")); ((s "attrs"), VDict [((s "localId"), VStr (s "b68b8002-950a-4816-81c4-afd263c919a2"))]); ((s "content"), VList [VDict [((s "type"), VStr (s "paragraph")); ((s "attrs"), VDict [((s "localId"), VStr (s "0180635b-7aec-4804-b99d-b09cbeff70b7"))]); ((s "content"), VList [VDict [((s "text"), VStr (s "item ")); ((s "type"), VStr (s "text"))]; VDict [((s "text"), VStr (s "1.1.1")); ((s "type"), VStr (s "text")); ((s "marks"), VList [VDict [((s "type"), VStr (s "strong"))]])]])]])]])]])]])]])]; VDict [((s "type"), VStr (s "listItem")); ((s "attrs"), VDict [((s "localId"), VStr (s "5616226f-95d7-4274-a9e8-bd4bbb9e2183"))]); ((s "content"), VList [VDict [((s "type"), VStr (s "paragraph")); ((s "attrs"), VDict [((s "localId"), VStr (s "5a5ee388-7164-4087-b643-33bdf121792f"))]); ((s "content"), VList [VDict [((s "text"), VStr (s "item 2")); ((s "type"), VStr (s "text"))]])]; VDict [((s "type"), VStr (s "bulletList")); ((s "attrs"), VDict [((s "localId"), VStr (s "6ba114c4-186a-4079-be27-9770d5d8f288"))]); ((s "content"), VList [VDict [((s "type"), VStr (s "listItem")); ((s "attrs"), VDict [((s "localId"), VStr (s "bba9e372-c20d-4eb0-b250-cda828f02d20"))]); ((s "content"), VList [VDict [((s "type"), VStr (s "paragraph")); ((s "attrs"), VDict [((s "localId"), VStr (s "54d1badf-f75d-4e97-bb6f-9f08cc82858e"))]); ((s "content"), VList [VDict [((s "text"), VStr (s "item 2.1")); ((s "type"), VStr (s "text"))]])]; VDict [((s "type"), VStr (s "bulletList")); ((s "attrs"), VDict [((s "localId"), VStr (s "d43deecb-d735-4c6b-9901-21c16f326555"))]); ((s "content"), VList [VDict [((s "type"), VStr (s "listItem")); ((s "attrs"), VDict [((s "localId"), VStr (s "22ea1392-90be-4fe1-813a-5e2084cb747b"))]); ((s "content"), VList [VDict [((s "type"), VStr (s "paragraph")); ((s "attrs"), VDict [((s "localId"), VStr (s "4cfba2ed-d8d6-4e80-a41e-191fc1a44375"))]); ((s "content"), VList [VDict [((s "text"), VStr (s "item 2.1.1")); ((s "type"), VStr (s "text"))]])]])]])]])]])]])]; VDict [((s "type"), VStr (s "listItem")); ((s "attrs"), VDict [((s "localId"), VStr (s "e439737b-095d-4ed1-a0cf-459038f7df95"))]); ((s "content"), VList [VDict [((s "type"), VStr (s "paragraph")); ((s "attrs"), VDict [((s "localId"), VStr (s "9de9863e-add2-4905-8f90-9e684dda86f8"))]); ((s "content"), VList [VDict [((s "text"), VStr (s "item 3")); ((s "type"), VStr (s "text"))]])]; VDict [((s "type"), VStr (s "bulletList")); ((s "attrs"), VDict [((s "localId"), VStr (s "53b30542-69b3-4b70-a292-8f2d7cd3a5ce"))]); ((s "content"), VList [VDict [((s "type"), VStr (s "listItem")); ((s "attrs"), VDict [((s "localId"), VStr (s "e439737b-095d-4ed1-a0cf-459038f7df95"))]); ((s "content"), VList [VDict [((s "type"), VStr (s "paragraph")); ((s "attrs"), VDict [((s "localId"), VStr (s "e049d288-5ab0-49cd-a850-1dab004b34f2"))]); ((s "content"), VList [VDict [((s "text"), VStr (s "item 3.1")); ((s "type"), VStr (s "text"))]])]; VDict [((s "type"), VStr (s "bulletList")); ((s "attrs"), VDict [((s "localId"), VStr (s "2cb4e148-6ad7-4704-83d1-688895e4caf1"))]); ((s "content"), VList [VDict [((s "type"), VStr (s "listItem")); ((s "attrs"), VDict [((s "localId"), VStr (s "e439737b-095d-4ed1-a0cf-459038f7df95"))]); ((s "content"), VList [VDict [((s "type"), VStr (s "paragraph")); ((s "attrs"), VDict [((s "localId"), VStr (s "db38a967-dae8-4215-9f65-321bebb43382"))]); ((s "content"), VList [VDict [((s "text"), VStr (s "item 3.1.1")); ((s "type"), VStr (s "text"))]])]])]])]])]])]])]])].

Example seder_node_bullet_list : seder v_node_bullet_list = true.
Proof. vm_compute. reflexivity. Qed.

Example md_node_bullet_list : renders v_node_bullet_list [45; 32; 105; 116; 101; 109; 32; 42; 42; 49; 42; 42; 10; 32; 32; 32; 32; 45; 32; 105; 116; 101; 109; 32; 42; 42; 49; 46; 49; 42; 42; 10; 32; 32; 32; 32; 32; 32; 32; 32; 45; 32; 105; 116; 101; 109; 32; 42; 42; 49; 46; 49; 46; 49; 42; 42; 10; 45; 32; 105; 116; 101; 109; 32; 50; 10; 32; 32; 32; 32; 45; 32; 105; 116; 101; 109; 32; 50; 46; 49; 10; 32; 32; 32; 32; 32; 32; 32; 32; 45; 32; 105; 116; 101; 109; 32; 50; 46; 49; 46; 49; 10; 45; 32; 105; 116; 101; 109; 32; 51; 10; 32; 32; 32; 32; 45; 32; 105; 116; 101; 109; 32; 51; 46; 49; 10; 32; 32; 32; 32; 32; 32; 32; 32; 45; 32; 105; 116; 101; 109; 32; 51; 46; 49; 46; 49]%N = true.
Proof. vm_compute. reflexivity. Qed.

Definition v_node_ordered_list : value := VDict [((s "type"), VStr (s "orderedList")); ((s "attrs"), VDict [((s "localId"), VStr (s "af08321b-d3e5-4eb4-804b-0f52198f6d3e")); ((s "order"), VInt (1))]); ((s "content"), VList [VDict [((s "type"), VStr (s "listItem")); ((s "attrs"), VDict [((s "localId"), VStr (s "e83ac6f7-9c20-4517-ae59-b1db6e3e548e"))]); ((s "content"), VList [VDict [((s "type"), VStr (s "paragraph")); ((s "attrs"), VDict [((s "localId"), VStr (s "cb19718c-9e43-4ee6-8999-61a8560bbfa1"))]); ((s "content"), VList [VDict [((s "text"), VStr (s "item ")); ((s "type"), VStr (s "text"))]; VDict [((s "text"), VStr (s "1")); ((s "type"), VStr (s "text")); ((s "marks"), VList [VDict [((s "type"), VStr (s "strong"))]])]])]; VDict [((s "type"), VStr (s "orderedList")); ((s "attrs"), VDict [((s "localId"), VStr (s "d9f90dd6-8fcb-489d-b11f-a54176243243")); ((s "order"), VInt (1))]); ((s "content"), VList [VDict [((s "type"), VStr (s "listItem")); ((s "attrs"), VDict [((s "localId"), VStr (s "e83ac6f7-9c20-4517-ae59-b1db6e3e548e"))]); ((s "content"), VList [VDict [((s "type"), VStr (s "paragraph")); ((s "attrs"), VDict [((s "localId"), VStr (s "4d62a842-ee0f-48c9-9a39-2061b68dfc24"))]); ((s "content"), VList [VDict [((s "text"), VStr (s "item ")); ((s "type"), VStr (s "text"))]; VDict [((s "text"), VStr (s "1.1")); ((s "type"), VStr (s "text")); ((s "marks"), VList [VDict [((s "type"), VStr (s "strong"))]])]])]; VDict [((s "type"), VStr (s "orderedList")); ((s "attrs"), VDict [((s "localId"), VStr (s "338c8e01-0f1d-4a01-bafd-071551a0705a")); ((s "order"), VInt (1))]); ((s "content"), VList [VDict [((s "type"), VStr (s "listItem")); ((s "attrs"), VDict [((s "localId"), VStr (s "e83ac6f7-9c20-4517-ae59-b1db6e3e548e"))]); ((s "content"), VList [VDict [((s "type"), VStr (s "paragraph")); ((s "attrs"), VDict [((s "localId"), VStr (s "a2460e1e-690a-4c83-930a-32f3561f0a9d"))]); ((s "content"), VList [VDict [((s "text"), VStr (s "item ")); ((s "type"), VStr (s "text"))]; VDict [((s "text"), VStr (s "1.1.1")); ((s "type"), VStr (s "text")); ((s "marks"), VList [VDict [((s "type"), VStr (s "strong"))]])]])]])]])]])]])]])]; VDict [((s "type"), VStr (s "listItem")); ((s "attrs"), VDict [((s "localId"), VStr (s "cfcceef5-807f-4785-812e-c460c64daa69"))]); ((s "content"), VList [VDict [((s "type"), VStr (s "paragraph")); ((s "attrs"), VDict [((s "localId"), VStr (s "7dd068d7-72be-4190-9695-7c5b7879d49f"))]); ((s "content"), VList [VDict [((s "text"), VStr (s "item 2")); ((s "type"), VStr (s "text"))]])]; VDict [((s "type"), VStr (s "orderedList")); ((s "attrs"), VDict [((s "localId"), VStr (s "b43fe0d1-5e38-4339-a10b-f104e9bedc37")); ((s "order"), VInt (1))]); ((s "content"), VList [VDict [((s "type"), VStr (s "listItem")); ((s "attrs"), VDict [((s "localId"), VStr (s "cfcceef5-807f-4785-812e-c460c64daa69"))]); ((s "content"), VList [VDict [((s "type"), VStr (s "paragraph")); ((s "attrs"), VDict [((s "localId"), VStr (s "39cb1c17-3492-4e4e-8cff-e33d35a4cda3"))]); ((s "content"), VList [VDict [((s "text"), VStr (s "item 2.1")); ((s "type"), VStr (s "text"))]])]; VDict [((s "type"), VStr (s "orderedList")); ((s "attrs"), VDict [((s "localId"), VStr (s "bde4f180-7980-457a-81fb-b16479e98a14")); ((s "order"), VInt (1))]); ((s "content"), VList [VDict [((s "type"), VStr (s "listItem")); ((s "attrs"), VDict [((s "localId"), VStr (s "cfcceef5-807f-4785-812e-c460c64daa69"))]); ((s "content"), VList [VDict [((s "type"), VStr (s "paragraph")); ((s "attrs"), VDict [((s "localId"), VStr (s "8a6488e9-2feb-4653-97b9-6ecd5fb0b818"))]); ((s "content"), VList [VDict [((s "text"), VStr (s "item 2.1.1")); ((s "type"), VStr (s "text"))]])]])]])]])]])]])]; VDict [((s "type"), VStr (s "listItem")); ((s "attrs"), VDict [((s "localId"), VStr (s "35a22ad6-2aa3-47a8-bda6-852ab41a74a4"))]); ((s "content"), VList [VDict [((s "type"), VStr (s "paragraph")); ((s "attrs"), VDict [((s "localId"), VStr (s "c7af5b11-043f-41a7-b5db-15843e7bceb2"))]); ((s "content"), VList [VDict [((s "text"), VStr (s "item 3")); ((s "type"), VStr (s "text"))]])]; VDict [((s "type"), VStr (s "orderedList")); ((s "attrs"), VDict [((s "localId"), VStr (s "9ec380cb-2f4b-47a3-a66b-a9622d0f9abb")); ((s "order"), VInt (1))]); ((s "content"), VList [VDict [((s "type"), VStr (s "listItem")); ((s "attrs"), VDict [((s "localId"), VStr (s "35a22ad6-2aa3-47a8-bda6-852ab41a74a4"))]); ((s "content"), VList [VDict [((s "type"), VStr (s "paragraph")); ((s "attrs"), VDict [((s "localId"), VStr (s "9029f293-45b8-4cd2-8654-1d8774ed3bcb"))]); ((s "content"), VList [VDict [((s "text"), VStr (s "item 3.1")); ((s "type"), VStr (s "text"))]])]; VDict [((s "type"), VStr (s "orderedList")); ((s "attrs"), VDict [((s "localId"), VStr (s "cb60804d-322e-45cf-9d4d-32c2f1fcc0aa")); ((s "order"), VInt (1))]); ((s "content"), VList [VDict [((s "type"), VStr (s "listItem")); ((s "attrs"), VDict [((s "localId"), VStr (s "35a22ad6-2aa3-47a8-bda6-852ab41a74a4"))]); ((s "content"), VList [VDict [((s "type"), VStr (s "paragraph")); ((s "attrs"), VDict [((s "localId"), VStr (s "1a08ca27-6b92-4df1-a85d-51239bbf69bb"))]); ((s "content"), VList [VDict [((s "text"), VStr (s "item 3.1.1")); ((s "type"), VStr (s "text"))]])]])]])]])]])]])]])].

Example seder_node_ordered_list : seder v_node_ordered_list = true.
Proof. vm_compute. reflexivity. Qed.

Example md_node_ordered_list : renders v_node_ordered_list [49; 46; 32; 105; 116; 101; 109; 32; 42; 42; 49; 42; 42; 10; 32; 32; 32; 32; 49; 46; 32; 105; 116; 101; 109; 32; 42; 42; 49; 46; 49; 42; 42; 10; 32; 32; 32; 32; 32; 32; 32; 32; 49; 46; 32; 105; 116; 101; 109; 32; 42; 42; 49; 46; 49; 46; 49; 42; 42; 10; 50; 46; 32; 105; 116; 101; 109; 32; 50; 10; 32; 32; 32; 32; 49; 46; 32; 105; 116; 101; 109; 32; 50; 46; 49; 10; 32; 32; 32; 32; 32; 32; 32; 32; 49; 46; 32; 105; 116; 101; 109; 32; 50; 46; 49; 46; 49; 10; 51; 46; 32; 105; 116; 101; 109; 32; 51; 10; 32; 32; 32; 32; 49; 46; 32; 105; 116; 101; 109; 32; 51; 46; 49; 10; 32; 32; 32; 32; 32; 32; 32; 32; 49; 46; 32; 105; 116; 101; 109; 32; 51; 46; 49; 46; 49]%N = true.
Proof. vm_compute. reflexivity. Qed.

Definition v_node_task_list : value := VDict [((s "type"), VStr (s "taskList")); ((s "attrs"), VDict [((s "localId"), VStr (s "814c9e8c-de4b-4b9a-b900-9c69da6d233c"))]); ((s "content"), VList [VDict [((s "type"), VStr (s "taskItem")); ((s "attrs"), VDict [((s "state"), VStr (s "DONE")); ((s "localId"), VStr (s "aeb0a871-eca4-486f-ba85-a252d0d12a53"))]); ((s "content"), VList [VDict [((s "text"), VStr (s "item ")); ((s "type"), VStr (s "text"))]; VDict [((s "text"), VStr (s "1")); ((s "type"), VStr (s "text")); ((s "marks"), VList [VDict [((s "type"), VStr (s "strong"))]])]])]; VDict [((s "type"), VStr (s "taskList")); ((s "attrs"), VDict [((s "localId"), VStr (s "851187cc-2c72-43fc-bbda-5f76a7622a10"))]); ((s "content"), VList [VDict [((s "type"), VStr (s "taskItem")); ((s "attrs"), VDict [((s "state"), VStr (s "DONE")); ((s "localId"), VStr (s "d34ab6d2-c326-41f0-9d7d-16b06d745285"))]); ((s "content"), VList [VDict [((s "text"), VStr (s "item ")); ((s "type"), VStr (s "text"))]; VDict [((s "text"), VStr (s "1.1")); ((s "type"), VStr (s "text")); ((s "marks"), VList [VDict [((s "type"), VStr (s "strong"))]])]])]; VDict [((s "type"), VStr (s "taskList")); ((s "attrs"), VDict [((s "localId"), VStr (s "000ef888-f031-426a-8220-c760c0491072"))]); ((s "content"), VList [VDict [((s "type"), VStr (s "taskItem")); ((s "attrs"), VDict [((s "state"), VStr (s "DONE")); ((s "localId"), VStr (s "3b95a0e7-31de-412b-ad5f-9afb497fe63e"))]); ((s "content"), VList [VDict [((s "text"), VStr (s "item ")); ((s "type"), VStr (s "text"))]; VDict [((s "text"), VStr (s "1.1.1")); ((s "type"), VStr (s "text")); ((s "marks"), VList [VDict [((s "type"), VStr (s "strong"))]])]])]])]])]; VDict [((s "type"), VStr (s "taskItem")); ((s "attrs"), VDict [((s "state"), VStr (s "TODO")); ((s "localId"), VStr (s "30409a39-d4cd-4426-87d2-7fc34bbad9e5"))]); ((s "content"), VList [VDict [((s "text"), VStr (s "item 2")); ((s "type"), VStr (s "text"))]])]; VDict [((s "type"), VStr (s "taskList")); ((s "attrs"), VDict [((s "localId"), VStr (s "231b700f-ed15-45b1-918c-9fda14935667"))]); ((s "content"), VList [VDict [((s "type"), VStr (s "taskItem")); ((s "attrs"), VDict [((s "state"), VStr (s "DONE")); ((s "localId"), VStr (s "ce7da6bc-01e9-4d71-88a3-37f3d9462895"))]); ((s "content"), VList [VDict [((s "text"), VStr (s "item 2.1")); ((s "type"), VStr (s "text"))]])]; VDict [((s "type"), VStr (s "taskList")); ((s "attrs"), VDict [((s "localId"), VStr (s "91a3400b-505b-4358-8b70-69e686cb284d"))]); ((s "content"), VList [VDict [((s "type"), VStr (s "taskItem")); ((s "attrs"), VDict [((s "state"), VStr (s "TODO")); ((s "localId"), VStr (s "a3a48d54-311f-4d07-a529-2dba83e35e12"))]); ((s "content"), VList [VDict [((s "text"), VStr (s "item 2.1.1")); ((s "type"), VStr (s "text"))]])]])]])]; VDict [((s "type"), VStr (s "taskItem")); ((s "attrs"), VDict [((s "state"), VStr (s "TODO")); ((s "localId"), VStr (s "b1f4f8d9-f647-4959-a331-36c232a2cbeb"))]); ((s "content"), VList [VDict [((s "text"), VStr (s "item 3")); ((s "type"), VStr (s "text"))]])]; VDict [((s "type"), VStr (s "taskList")); ((s "attrs"), VDict [((s "localId"), VStr (s "13b3ad55-3150-437c-af66-74f9088ce010"))]); ((s "content"), VList [VDict [((s "type"), VStr (s "taskItem")); ((s "attrs"), VDict [((s "state"), VStr (s "TODO")); ((s "localId"), VStr (s "64d7da65-5360-4e1c-b84b-61d3afcaa013"))]); ((s "content"), VList [VDict [((s "text"), VStr (s "item 3.1")); ((s "type"), VStr (s "text"))]])]; VDict [((s "type"), VStr (s "taskList")); ((s "attrs"), VDict [((s "localId"), VStr (s "725c83c2-ca49-4575-bd37-68d6cf7a4119"))]); ((s "content"), VList [VDict [((s "type"), VStr (s "taskItem")); ((s "attrs"), VDict [((s "state"), VStr (s "DONE")); ((s "localId"), VStr (s "89548b2a-7b1b-42ca-b91f-7dadbb60ed66"))]); ((s "content"), VList [VDict [((s "text"), VStr (s "item 3.1.1")); ((s "type"), VStr (s "text"))]])]])]])]])].

Example seder_node_task_list : seder v_node_task_list = true.
Proof. vm_compute. reflexivity. Qed.

Example md_node_task_list : renders v_node_task_list [45; 32; 91; 120; 93; 32; 105; 116; 101; 109; 32; 42; 42; 49; 42; 42; 10; 32; 32; 32; 32; 45; 32; 91; 120; 93; 32; 105; 116; 101; 109; 32; 42; 42; 49; 46; 49; 42; 42; 10; 32; 32; 32; 32; 32; 32; 32; 32; 45; 32; 91; 120; 93; 32; 105; 116; 101; 109; 32; 42; 42; 49; 46; 49; 46; 49; 42; 42; 10; 45; 32; 91; 32; 93; 32; 105; 116; 101; 109; 32; 50; 10; 32; 32; 32; 32; 45; 32; 91; 120; 93; 32; 105; 116; 101; 109; 32; 50; 46; 49; 10; 32; 32; 32; 32; 32; 32; 32; 32; 45; 32; 91; 32; 93; 32; 105; 116; 101; 109; 32; 50; 46; 49; 46; 49; 10; 45; 32; 91; 32; 93; 32; 105; 116; 101; 109; 32; 51; 10; 32; 32; 32; 32; 45; 32; 91; 32; 93; 32; 105; 116; 101; 109; 32; 51; 46; 49; 10; 32; 32; 32; 32; 32; 32; 32; 32; 45; 32; 91; 120; 93; 32; 105; 116; 101; 109; 32; 51; 46; 49; 46; 49]%N = true.
Proof. vm_compute. reflexivity. Qed.

Definition v_node_decision_item_simple : value := VDict [((s "type"), VStr (s "decisionItem")); ((s "attrs"), VDict [((s "state"), VStr (s "DECIDED")); ((s "localId"), VStr (s "8b87d6fb-7e1a-404c-805f-cd9aca6a9fb0"))]); ((s "content"), VList [VDict [((s "text"), VStr (s "decision ")); ((s "type"), VStr (s "text"))]; VDict [((s "text"), VStr (s "1")); ((s "type"), VStr (s "text")); ((s "marks"), VList [VDict [((s "type"), VStr (s "strong"))]])]])].

Example seder_node_decision_item_simple : seder v_node_decision_item_simple = true.
Proof. vm_compute. reflexivity. Qed.

Example md_node_decision_item_simple : renders v_node_decision_item_simple (s "> decision **1**") = true.
Proof. vm_compute. reflexivity. Qed.

Definition v_node_decision_item_complex_1 : value := VDict [((s "type"), VStr (s "decisionItem")); ((s "attrs"), VDict [((s "state"), VStr (s "DECIDED")); ((s "localId"), VStr (s "a50ac992-cd30-4500-8dc9-3f9462d01060"))]); ((s "content"), VList [VDict [((s "text"), VStr (s "decision 2")); ((s "type"), VStr (s "text"))]; VDict [((s "type"), VStr (s "hardBreak"))]; VDict [((s "text"), VStr (s "- first")); ((s "type"), VStr (s "text"))]; VDict [((s "type"), VStr (s "hardBreak"))]; VDict [((s "text"), VStr (s "- second")); ((s "type"), VStr (s "text"))]; VDict [((s "type"), VStr (s "hardBreak"))]; VDict [((s "type"), VStr (s "hardBreak"))]; VDict [((s "text"), VStr (s "some text")); ((s "type"), VStr (s "text"))]])].

Example seder_node_decision_item_complex_1 : seder v_node_decision_item_complex_1 = true.
Proof. vm_compute. reflexivity. Qed.

Example md_node_decision_item_complex_1 : renders v_node_decision_item_complex_1 [62; 32; 100; 101; 99; 105; 115; 105; 111; 110; 32; 50; 10; 62; 32; 45; 32; 102; 105; 114; 115; 116; 10; 62; 32; 45; 32; 115; 101; 99; 111; 110; 100; 10; 62; 10; 62; 32; 115; 111; 109; 101; 32; 116; 101; 120; 116]%N = true.
Proof. vm_compute. reflexivity. Qed.

Definition v_node_decision_item_complex_2 : value := VDict [((s "type"), VStr (s "decisionItem")); ((s "attrs"), VDict [((s "state"), VStr (s "DECIDED")); ((s "localId"), VStr (s "f2df7ca7-974f-4118-a017-c66ccb2ebe32"))]); ((s "content"), VList [VDict [((s "text"), VStr (s "decision 3")); ((s "type"), VStr (s "text"))]; VDict [((s "type"), VStr (s "hardBreak"))]; VDict [((s "type"), VStr (s "hardBreak"))]; VDict [((s "text"), VStr (s "1. ")); ((s "type"), VStr (s "text"))]; VDict [((s "text"), VStr (s "https://example.com")); ((s "type"), VStr (s "text")); ((s "marks"), VList [VDict [((s "type"), VStr (s "link")); ((s "attrs"), VDict [((s "href"), VStr (s "https://example.com"))])]])]; VDict [((s "text"), VStr (s " ")); ((s "type"), VStr (s "text"))]; VDict [((s "type"), VStr (s "hardBreak"))]; VDict [((s "text"), VStr (s "2. ")); ((s "type"), VStr (s "text"))]; VDict [((s "type"), VStr (s "inlineCard")); ((s "attrs"), VDict [((s "localId"), VStr (s "377a8d0b-04f5-4258-9a77-2010aedfdc71")); ((s "url"), VStr (s "https://example.com"))])]; VDict [((s "text"), VStr (s " ")); ((s "type"), VStr (s "text"))]; VDict [((s "type"), VStr (s "hardBreak"))]; VDict [((s "type"), VStr (s "hardBreak"))]; VDict [((s "text"), VStr (s "some text")); ((s "type"), VStr (s "text"))]])].

Example seder_node_decision_item_complex_2 : seder v_node_decision_item_complex_2 = true.
Proof. vm_compute. reflexivity. Qed.

Example md_node_decision_item_complex_2 : renders v_node_decision_item_complex_2 [62; 32; 100; 101; 99; 105; 115; 105; 111; 110; 32; 51; 10; 62; 32; 49; 46; 32; 91; 104; 116; 116; 112; 115; 58; 47; 47; 101; 120; 97; 109; 112; 108; 101; 46; 99; 111; 109; 93; 40; 104; 116; 116; 112; 115; 58; 47; 47; 101; 120; 97; 109; 112; 108; 101; 46; 99; 111; 109; 41; 10; 62; 32; 50; 46; 32; 91; 104; 116; 116; 112; 115; 58; 47; 47; 101; 120; 97; 109; 112; 108; 101; 46; 99; 111; 109; 93; 40; 104; 116; 116; 112; 115; 58; 47; 47; 101; 120; 97; 109; 112; 108; 101; 46; 99; 111; 109; 41; 10; 62; 10; 62; 32; 115; 111; 109; 101; 32; 116; 101; 120; 116]%N = true.
Proof. vm_compute. reflexivity. Qed.

Definition v_node_decision_list : value := VDict [((s "type"), VStr (s "decisionList")); ((s "attrs"), VDict [((s "localId"), VStr (s "8984dcfa-e423-4d83-ae2c-501dee166a48"))]); ((s "content"), VList [VDict [((s "type"), VStr (s "decisionItem")); ((s "attrs"), VDict [((s "state"), VStr (s "DECIDED")); ((s "localId"), VStr (s "8b87d6fb-7e1a-404c-805f-cd9aca6a9fb0"))]); ((s "content"), VList [VDict [((s "text"), VStr (s "decision ")); ((s "type"), VStr (s "text"))]; VDict [((s "text"), VStr (s "1")); ((s "type"), VStr (s "text")); ((s "marks"), VList [VDict [((s "type"), VStr (s "strong"))]])]])]; VDict [((s "type"), VStr (s "decisionItem")); ((s "attrs"), VDict [((s "state"), VStr (s "DECIDED")); ((s "localId"), VStr (s "a50ac992-cd30-4500-8dc9-3f9462d01060"))]); ((s "content"), VList [VDict [((s "text"), VStr (s "decision 2")); ((s "type"), VStr (s "text"))]; VDict [((s "type"), VStr (s "hardBreak"))]; VDict [((s "text"), VStr (s "- first")); ((s "type"), VStr (s "text"))]; VDict [((s "type"), VStr (s "hardBreak"))]; VDict [((s "text"), VStr (s "- second")); ((s "type"), VStr (s "text"))]; VDict [((s "type"), VStr (s "hardBreak"))]; VDict [((s "type"), VStr (s "hardBreak"))]; VDict [((s "text"), VStr (s "some text")); ((s "type"), VStr (s "text"))]])]; VDict [((s "type"), VStr (s "decisionItem")); ((s "attrs"), VDict [((s "state"), VStr (s "DECIDED")); ((s "localId"), VStr (s "f2df7ca7-974f-4118-a017-c66ccb2ebe32"))]); ((s "content"), VList [VDict [((s "text"), VStr (s "decision 3")); ((s "type"), VStr (s "text"))]; VDict [((s "type"), VStr (s "hardBreak"))]; VDict [((s "type"), VStr (s "hardBreak"))]; VDict [((s "text"), VStr (s "1. ")); ((s "type"), VStr (s "text"))]; VDict [((s "text"), VStr (s "https://example.com")); ((s "type"), VStr (s "text")); ((s "marks"), VList [VDict [((s "type"), VStr (s "link")); ((s "attrs"), VDict [((s "href"), VStr (s "https://example.com"))])]])]; VDict [((s "text"), VStr (s " ")); ((s "type"), VStr (s "text"))]; VDict [((s "type"), VStr (s "hardBreak"))]; VDict [((s "text"), VStr (s "2. ")); ((s "type"), VStr (s "text"))]; VDict [((s "type"), VStr (s "inlineCard")); ((s "attrs"), VDict [((s "localId"), VStr (s "377a8d0b-04f5-4258-9a77-2010aedfdc71")); ((s "url"), VStr (s "https://example.com"))])]; VDict [((s "text"), VStr (s " ")); ((s "type"), VStr (s "text"))]; VDict [((s "type"), VStr (s "hardBreak"))]; VDict [((s "type"), VStr (s "hardBreak"))]; VDict [((s "text"), VStr (s "some text")); ((s "type"), VStr (s "text"))]])]])].

Example seder_node_decision_list : seder v_node_decision_list = true.
Proof. vm_compute. reflexivity. Qed.

Example md_node_decision_list : renders v_node_decision_list [62; 32; 100; 101; 99; 105; 115; 105; 111; 110; 32; 42; 42; 49; 42; 42; 10; 10; 62; 32; 100; 101; 99; 105; 115; 105; 111; 110; 32; 50; 10; 62; 32; 45; 32; 102; 105; 114; 115; 116; 10; 62; 32; 45; 32; 115; 101; 99; 111; 110; 100; 10; 62; 10; 62; 32; 115; 111; 109; 101; 32; 116; 101; 120; 116; 10; 10; 62; 32; 100; 101; 99; 105; 115; 105; 111; 110; 32; 51; 10; 62; 32; 49; 46; 32; 91; 104; 116; 116; 112; 115; 58; 47; 47; 101; 120; 97; 109; 112; 108; 101; 46; 99; 111; 109; 93; 40; 104; 116; 116; 112; 115; 58; 47; 47; 101; 120; 97; 109; 112; 108; 101; 46; 99; 111; 109; 41; 10; 62; 32; 50; 46; 32; 91; 104; 116; 116; 112; 115; 58; 47; 47; 101; 120; 97; 109; 112; 108; 101; 46; 99; 111; 109; 93; 40; 104; 116; 116; 112; 115; 58; 47; 47; 101; 120; 97; 109; 112; 108; 101; 46; 99; 111; 109; 41; 10; 62; 10; 62; 32; 115; 111; 109; 101; 32; 116; 101; 120; 116]%N = true.
Proof. vm_compute. reflexivity. Qed.

Definition v_node_hard_break : value := VDict [((s "type"), VStr (s "paragraph")); ((s "attrs"), VDict [((s "localId"), VStr (s "ca291e63-0100-4752-af47-5be3833a8edc"))]); ((s "content"), VList [VDict [((s "text"), VStr (s "below is a hard break")); ((s "type"), VStr (s "text"))]; VDict [((s "type"), VStr (s "hardBreak"))]; VDict [((s "text"), VStr (s "above is a hard break")); ((s "type"), VStr (s "text"))]])].

Example seder_node_hard_break : seder v_node_hard_break = true.
Proof. vm_compute. reflexivity. Qed.

Example md_node_hard_break : renders v_node_hard_break [98; 101; 108; 111; 119; 32; 105; 115; 32; 97; 32; 104; 97; 114; 100; 32; 98; 114; 101; 97; 107; 32; 32; 10; 97; 98; 111; 118; 101; 32; 105; 115; 32; 97; 32; 104; 97; 114; 100; 32; 98; 114; 101; 97; 107]%N = true.
Proof. vm_compute. reflexivity. Qed.

Definition v_node_date : value := VDict [((s "type"), VStr (s "date")); ((s "attrs"), VDict [((s "localId"), VStr (s "61bcc35b-be72-443f-91b0-aadef5731204")); ((s "timestamp"), VStr (s "1767225600000"))])].

Example seder_node_date : seder v_node_date = true.
Proof. vm_compute. reflexivity. Qed.

Example md_node_date : renders v_node_date (s "2026-01-01") = true.
Proof. vm_compute. reflexivity. Qed.

Definition v_node_emoji : value := VDict [((s "type"), VStr (s "emoji")); ((s "attrs"), VDict [((s "id"), VStr (s "2699")); ((s "text"), VStr [9881; 65039]%N); ((s "shortName"), VStr (s ":gear:")); ((s "localId"), VStr (s "38f1140f-2ffb-4a50-8fdf-df058a7dd48a"))])].

Example seder_node_emoji : seder v_node_emoji = true.
Proof. vm_compute. reflexivity. Qed.

Example md_node_emoji : renders v_node_emoji [9881; 65039]%N = true.
Proof. vm_compute. reflexivity. Qed.

Definition v_node_mention : value := VDict [((s "type"), VStr (s "mention")); ((s "attrs"), VDict [((s "id"), VStr (s "70121:5e8e6032-7f3d-4cfa-a4f7-c1bce3f8f06a")); ((s "localId"), VStr (s "830de724-8d82-4c40-bfae-63e5e5894734")); ((s "text"), VStr (s "@machu"))])].

Example seder_node_mention : seder v_node_mention = true.
Proof. vm_compute. reflexivity. Qed.

Example md_node_mention : renders v_node_mention (s "@machu") = true.
Proof. vm_compute. reflexivity. Qed.

Definition v_node_status : value := VDict [((s "type"), VStr (s "status")); ((s "attrs"), VDict [((s "color"), VStr (s "blue")); ((s "style"), VStr (s "bold")); ((s "text"), VStr (s "TODO")); ((s "localId"), VStr (s "5af6078e-77cc-4be7-8c1f-c52aa07cf284"))])].

Example seder_node_status : seder v_node_status = true.
Proof. vm_compute. reflexivity. Qed.

Example md_node_status : renders v_node_status (s "`TODO`") = true.
Proof. vm_compute. reflexivity. Qed.

Definition v_node_code_block : value := VDict [((s "type"), VStr (s "codeBlock")); ((s "attrs"), VDict [((s "language"), VStr (s "python")); ((s "localId"), VStr (s "74a0f271-419b-4c5d-bd6a-398ae38e4215"))]); ((s "content"), VList [VDict [((s "text"), VStr [100; 101; 102; 32; 97; 100; 100; 95; 116; 119; 111; 40; 97; 44; 32; 98; 41; 58; 10; 32; 32; 32; 32; 114; 101; 116; 117; 114; 110; 32; 97; 32; 43; 32; 98]%N); ((s "type"), VStr (s "text"))]])].

Example seder_node_code_block : seder v_node_code_block = true.
Proof. vm_compute. reflexivity. Qed.

Example md_node_code_block : renders v_node_code_block [96; 96; 96; 112; 121; 116; 104; 111; 110; 10; 100; 101; 102; 32; 97; 100; 100; 95; 116; 119; 111; 40; 97; 44; 32; 98; 41; 58; 10; 32; 32; 32; 32; 114; 101; 116; 117; 114; 110; 32; 97; 32; 43; 32; 98; 10; 96; 96; 96]%N = true.
Proof. vm_compute. reflexivity. Qed.

Definition v_node_heading_basic : value := VDict [((s "type"), VStr (s "heading")); ((s "attrs"), VDict [((s "level"), VInt (1)); ((s "localId"), VStr (s "93780556-66ed-4495-aa42-bfd0453a7d22"))]); ((s "content"), VList [VDict [((s "text"), VStr (s "header 1")); ((s "type"), VStr (s "text"))]])].

Example seder_node_heading_basic : seder v_node_heading_basic = true.
Proof. vm_compute. reflexivity. Qed.

Example md_node_heading_basic : renders v_node_heading_basic (s "# header 1") = true.
Proof. vm_compute. reflexivity. Qed.

Definition v_node_header_1 : value := VDict [((s "type"), VStr (s "heading")); ((s "attrs"), VDict [((s "level"), VInt (1)); ((s "localId"), VStr (s "34de136b-8c02-4a17-bb8f-134cdf3306f1"))]); ((s "content"), VList [VDict [((s "text"), VStr (s "header")); ((s "type"), VStr (s "text")); ((s "marks"), VList [VDict [((s "type"), VStr (s "backgroundColor")); ((s "attrs"), VDict [((s "color"), VStr (s "#fedec8"))])]])]; VDict [((s "text"), VStr (s " 1")); ((s "type"), VStr (s "text"))]])].

Example seder_node_header_1 : seder v_node_header_1 = true.
Proof. vm_compute. reflexivity. Qed.

Example md_node_header_1 : renders v_node_header_1 (s "# header 1") = true.
Proof. vm_compute. reflexivity. Qed.

Definition v_node_header_2 : value := VDict [((s "type"), VStr (s "heading")); ((s "attrs"), VDict [((s "level"), VInt (2)); ((s "localId"), VStr (s "474087c7-747f-47a6-84f4-ad280f14daab"))]); ((s "content"), VList [VDict [((s "text"), VStr (s "header")); ((s "type"), VStr (s "text")); ((s "marks"), VList [VDict [((s "type"), VStr (s "textColor")); ((s "attrs"), VDict [((s "color"), VStr (s "#ff5630"))])]])]; VDict [((s "text"), VStr (s " 2")); ((s "type"), VStr (s "text"))]])].

Example seder_node_header_2 : seder v_node_header_2 = true.
Proof. vm_compute. reflexivity. Qed.

Example md_node_header_2 : renders v_node_header_2 (s "## header 2") = true.
Proof. vm_compute. reflexivity. Qed.

Definition v_node_header_3 : value := VDict [((s "type"), VStr (s "heading")); ((s "attrs"), VDict [((s "level"), VInt (3)); ((s "localId"), VStr (s "e109bc52-6b88-4935-bf35-1ed18afeebe0"))]); ((s "content"), VList [VDict [((s "text"), VStr (s "header")); ((s "type"), VStr (s "text")); ((s "marks"), VList [VDict [((s "type"), VStr (s "strong"))]])]; VDict [((s "text"), VStr (s " 3")); ((s "type"), VStr (s "text"))]])].

Example seder_node_header_3 : seder v_node_header_3 = true.
Proof. vm_compute. reflexivity. Qed.

Example md_node_header_3 : renders v_node_header_3 (s "### **header** 3") = true.
Proof. vm_compute. reflexivity. Qed.

Definition v_node_header_4 : value := VDict [((s "type"), VStr (s "heading")); ((s "attrs"), VDict [((s "level"), VInt (4)); ((s "localId"), VStr (s "5c6b60ae-b729-4ce1-8663-d0901ef6abe3"))]); ((s "content"), VList [VDict [((s "text"), VStr (s "header")); ((s "type"), VStr (s "text")); ((s "marks"), VList [VDict [((s "type"), VStr (s "strike"))]])]; VDict [((s "text"), VStr (s " 4")); ((s "type"), VStr (s "text"))]])].

Example seder_node_header_4 : seder v_node_header_4 = true.
Proof. vm_compute. reflexivity. Qed.

Example md_node_header_4 : renders v_node_header_4 (s "#### ~~header~~ 4") = true.
Proof. vm_compute. reflexivity. Qed.

Definition v_node_header_5 : value := VDict [((s "type"), VStr (s "heading")); ((s "attrs"), VDict [((s "level"), VInt (5)); ((s "localId"), VStr (s "4047f08d-c43b-4837-a206-a69ebea23e6f"))]); ((s "content"), VList [VDict [((s "text"), VStr (s "header")); ((s "type"), VStr (s "text")); ((s "marks"), VList [VDict [((s "type"), VStr (s "underline"))]])]; VDict [((s "text"), VStr (s " 5")); ((s "type"), VStr (s "text"))]])].

Example seder_node_header_5 : seder v_node_header_5 = true.
Proof. vm_compute. reflexivity. Qed.

Example md_node_header_5 : renders v_node_header_5 (s "##### header 5") = true.
Proof. vm_compute. reflexivity. Qed.

Definition v_node_header_6 : value := VDict [((s "type"), VStr (s "heading")); ((s "attrs"), VDict [((s "level"), VInt (6)); ((s "localId"), VStr (s "e4f43161-4f7b-492a-82e3-d4cd70a2b543"))]); ((s "content"), VList [VDict [((s "text"), VStr (s "header")); ((s "type"), VStr (s "text")); ((s "marks"), VList [VDict [((s "type"), VStr (s "link")); ((s "attrs"), VDict [((s "href"), VStr (s "https://example.com"))])]])]; VDict [((s "text"), VStr (s " 6")); ((s "type"), VStr (s "text"))]])].

Example seder_node_header_6 : seder v_node_header_6 = true.
Proof. vm_compute. reflexivity. Qed.

Example md_node_header_6 : renders v_node_header_6 (s "###### [header](https://example.com) 6") = true.
Proof. vm_compute. reflexivity. Qed.

Definition v_node_inline_card : value := VDict [((s "type"), VStr (s "inlineCard")); ((s "attrs"), VDict [((s "localId"), VStr (s "ee9567d2-05b0-4f16-86fa-a1eeb6d546f5")); ((s "url"), VStr (s "https://example.com"))])].

Example seder_node_inline_card : seder v_node_inline_card = true.
Proof. vm_compute. reflexivity. Qed.

Example md_node_inline_card : renders v_node_inline_card (s "[https://example.com](https://example.com)") = true.
Proof. vm_compute. reflexivity. Qed.

Definition v_node_block_card : value := VDict [((s "type"), VStr (s "blockCard")); ((s "attrs"), VDict [((s "localId"), VStr (s "ee9567d2-05b0-4f16-86fa-a1eeb6d546f5")); ((s "url"), VStr (s "https://example.com"))])].

Example seder_node_block_card : seder v_node_block_card = true.
Proof. vm_compute. reflexivity. Qed.

Example md_node_block_card : renders v_node_block_card (s "[https://example.com](https://example.com)") = true.
Proof. vm_compute. reflexivity. Qed.

Definition v_node_embed_card : value := VDict [((s "type"), VStr (s "embedCard")); ((s "attrs"), VDict [((s "layout"), VStr (s "wide")); ((s "originalHeight"), VFloat (FFin (480) (0))); ((s "width"), VFloat (FFin (100) (0))); ((s "localId"), VStr (s "b98f36ea-5053-4cfe-851a-72a520db8328")); ((s "url"), VStr (s "https://www.youtube.com/watch?v=XqZsoesa55w")); ((s "originalWidth"), VFloat (FFin (7506058019570975) (-43)))])].

Example seder_node_embed_card : seder v_node_embed_card = true.
Proof. vm_compute. reflexivity. Qed.

Example md_node_embed_card : renders v_node_embed_card (s "[https://www.youtube.com/watch?v=XqZsoesa55w](https://www.youtube.com/watch?v=XqZsoesa55w)") = true.
Proof. vm_compute. reflexivity. Qed.

Definition v_node_media_url_image : value := VDict [((s "type"), VStr (s "media")); ((s "attrs"), VDict [((s "width"), VInt (580)); ((s "type"), VStr (s "external")); ((s "localId"), VStr (s "625b2ad0-41f6-446a-a9a1-a8b4d8e639e8")); ((s "url"), VStr (s "https://www.python.org/static/img/python-logo.png")); ((s "height"), VInt (164))])].

Example seder_node_media_url_image : seder v_node_media_url_image = true.
Proof. vm_compute. reflexivity. Qed.

Example md_node_media_url_image : renders v_node_media_url_image (s "![media](https://www.python.org/static/img/python-logo.png)") = true.
Proof. vm_compute. reflexivity. Qed.

Definition v_node_media_url_image_with_caption : value := VDict [((s "type"), VStr (s "media")); ((s "attrs"), VDict [((s "width"), VInt (580)); ((s "type"), VStr (s "external")); ((s "localId"), VStr (s "15043341-eb0d-47b1-9252-acfc32272ee2")); ((s "url"), VStr (s "https://www.python.org/static/img/python-logo.png")); ((s "height"), VInt (164))])].

Example seder_node_media_url_image_with_caption : seder v_node_media_url_image_with_caption = true.
Proof. vm_compute. reflexivity. Qed.

Example md_node_media_url_image_with_caption : renders v_node_media_url_image_with_caption (s "![media](https://www.python.org/static/img/python-logo.png)") = true.
Proof. vm_compute. reflexivity. Qed.

Definition v_node_media_url_image_with_alt_text : value := VDict [((s "type"), VStr (s "media")); ((s "attrs"), VDict [((s "width"), VInt (580)); ((s "alt"), VStr (s "python org")); ((s "type"), VStr (s "external")); ((s "localId"), VStr (s "bf31554e-7fc4-488d-9029-642c9b7ec9f9")); ((s "url"), VStr (s "https://www.python.org/static/img/python-logo.png")); ((s "height"), VInt (164))])].

Example seder_node_media_url_image_with_alt_text : seder v_node_media_url_image_with_alt_text = true.
Proof. vm_compute. reflexivity. Qed.

Example md_node_media_url_image_with_alt_text : renders v_node_media_url_image_with_alt_text (s "![python org](https://www.python.org/static/img/python-logo.png)") = true.
Proof. vm_compute. reflexivity. Qed.

Definition v_node_media_url_image_with_clickable_link : value := VDict [((s "type"), VStr (s "media")); ((s "attrs"), VDict [((s "width"), VInt (580)); ((s "type"), VStr (s "external")); ((s "localId"), VStr (s "8294555d-c6f5-4271-8c22-9941ef5fd216")); ((s "url"), VStr (s "https://www.python.org/static/img/python-logo.png")); ((s "height"), VInt (164))]); ((s "marks"), VList [VDict [((s "type"), VStr (s "link")); ((s "attrs"), VDict [((s "href"), VStr (s "https://python.org"))])]])].

Example seder_node_media_url_image_with_clickable_link : seder v_node_media_url_image_with_clickable_link = true.
Proof. vm_compute. reflexivity. Qed.

Example md_node_media_url_image_with_clickable_link : renders v_node_media_url_image_with_clickable_link (s "[![media](https://www.python.org/static/img/python-logo.png)](https://python.org)") = true.
Proof. vm_compute. reflexivity. Qed.

Definition v_node_media_url_image_with_caption_and_clickable_link : value := VDict [((s "type"), VStr (s "media")); ((s "attrs"), VDict [((s "width"), VInt (580)); ((s "alt"), VStr (s "this is alt text")); ((s "type"), VStr (s "external")); ((s "localId"), VStr (s "40964c5c-803a-40fe-8971-efe3a0cff3f7")); ((s "url"), VStr (s "https://www.python.org/static/img/python-logo.png")); ((s "height"), VInt (164))]); ((s "marks"), VList [VDict [((s "type"), VStr (s "link")); ((s "attrs"), VDict [((s "href"), VStr (s "https://python.org"))])]])].

Example seder_node_media_url_image_with_caption_and_clickable_link : seder v_node_media_url_image_with_caption_and_clickable_link = true.
Proof. vm_compute. reflexivity. Qed.

Example md_node_media_url_image_with_caption_and_clickable_link : renders v_node_media_url_image_with_caption_and_clickable_link (s "[![this is alt text](https://www.python.org/static/img/python-logo.png)](https://python.org)") = true.
Proof. vm_compute. reflexivity. Qed.

Definition v_node_media_uploaded_image : value := VDict [((s "type"), VStr (s "media")); ((s "attrs"), VDict [((s "width"), VInt (580)); ((s "alt"), VStr (s "python-logo.png")); ((s "id"), VStr (s "14407e98-14d3-4d5e-aa66-6a23621d5a85")); ((s "collection"), VStr (s "contentId-653558733")); ((s "type"), VStr (s "file")); ((s "localId"), VStr (s "50f805f9-2e1b-4b07-8507-50358a2578a2")); ((s "height"), VInt (164))])].

Example seder_node_media_uploaded_image : seder v_node_media_uploaded_image = true.
Proof. vm_compute. reflexivity. Qed.

Example md_node_media_uploaded_image : renders v_node_media_uploaded_image (s "![python-logo.png](media:14407e98-14d3-4d5e-aa66-6a23621d5a85)") = true.
Proof. vm_compute. reflexivity. Qed.

Definition v_node_media_single_url_image : value := VDict [((s "type"), VStr (s "mediaSingle")); ((s "attrs"), VDict [((s "layout"), VStr (s "center")); ((s "width"), VInt (250)); ((s "widthType"), VStr (s "pixel"))]); ((s "content"), VList [VDict [((s "type"), VStr (s "media")); ((s "attrs"), VDict [((s "width"), VInt (580)); ((s "type"), VStr (s "external")); ((s "localId"), VStr (s "625b2ad0-41f6-446a-a9a1-a8b4d8e639e8")); ((s "url"), VStr (s "https://www.python.org/static/img/python-logo.png")); ((s "height"), VInt (164))])]])].

Example seder_node_media_single_url_image : seder v_node_media_single_url_image = true.
Proof. vm_compute. reflexivity. Qed.

Example md_node_media_single_url_image : renders v_node_media_single_url_image (s "![media](https://www.python.org/static/img/python-logo.png)") = true.
Proof. vm_compute. reflexivity. Qed.

Definition v_node_media_single_url_image_with_caption : value := VDict [((s "type"), VStr (s "mediaSingle")); ((s "attrs"), VDict [((s "layout"), VStr (s "center")); ((s "width"), VInt (250)); ((s "widthType"), VStr (s "pixel"))]); ((s "content"), VList [VDict [((s "type"), VStr (s "media")); ((s "attrs"), VDict [((s "width"), VInt (580)); ((s "type"), VStr (s "external")); ((s "localId"), VStr (s "15043341-eb0d-47b1-9252-acfc32272ee2")); ((s "url"), VStr (s "https://www.python.org/static/img/python-logo.png")); ((s "height"), VInt (164))])]; VDict [((s "type"), VStr (s "caption")); ((s "attrs"), VDict [((s "localId"), VStr (s "ea7dce2f-563f-4787-a4c6-88b8354a4801"))]); ((s "content"), VList [VDict [((s "text"), VStr (s "this is caption text")); ((s "type"), VStr (s "text"))]])]])].

Example seder_node_media_single_url_image_with_caption : seder v_node_media_single_url_image_with_caption = true.
Proof. vm_compute. reflexivity. Qed.

Example md_node_media_single_url_image_with_caption : renders v_node_media_single_url_image_with_caption (s "![media](https://www.python.org/static/img/python-logo.png)") = true.
Proof. vm_compute. reflexivity. Qed.

Definition v_node_media_single_url_image_with_alt_text : value := VDict [((s "type"), VStr (s "mediaSingle")); ((s "attrs"), VDict [((s "layout"), VStr (s "center")); ((s "width"), VInt (250)); ((s "widthType"), VStr (s "pixel"))]); ((s "content"), VList [VDict [((s "type"), VStr (s "media")); ((s "attrs"), VDict [((s "width"), VInt (580)); ((s "alt"), VStr (s "python org")); ((s "type"), VStr (s "external")); ((s "localId"), VStr (s "bf31554e-7fc4-488d-9029-642c9b7ec9f9")); ((s "url"), VStr (s "https://www.python.org/static/img/python-logo.png")); ((s "height"), VInt (164))])]])].

Example seder_node_media_single_url_image_with_alt_text : seder v_node_media_single_url_image_with_alt_text = true.
Proof. vm_compute. reflexivity. Qed.

Example md_node_media_single_url_image_with_alt_text : renders v_node_media_single_url_image_with_alt_text (s "![python org](https://www.python.org/static/img/python-logo.png)") = true.
Proof. vm_compute. reflexivity. Qed.

Definition v_node_media_single_url_image_with_clickable_link : value := VDict [((s "type"), VStr (s "mediaSingle")); ((s "attrs"), VDict [((s "layout"), VStr (s "center")); ((s "width"), VInt (250)); ((s "widthType"), VStr (s "pixel"))]); ((s "content"), VList [VDict [((s "type"), VStr (s "media")); ((s "attrs"), VDict [((s "width"), VInt (580)); ((s "type"), VStr (s "external")); ((s "localId"), VStr (s "8294555d-c6f5-4271-8c22-9941ef5fd216")); ((s "url"), VStr (s "https://www.python.org/static/img/python-logo.png")); ((s "height"), VInt (164))]); ((s "marks"), VList [VDict [((s "type"), VStr (s "link")); ((s "attrs"), VDict [((s "href"), VStr (s "https://python.org"))])]])]])].

Example seder_node_media_single_url_image_with_clickable_link : seder v_node_media_single_url_image_with_clickable_link = true.
Proof. vm_compute. reflexivity. Qed.

Example md_node_media_single_url_image_with_clickable_link : renders v_node_media_single_url_image_with_clickable_link (s "[![media](https://www.python.org/static/img/python-logo.png)](https://python.org)") = true.
Proof. vm_compute. reflexivity. Qed.

Definition v_node_media_single_url_image_with_caption_and_clickable_link : value := VDict [((s "type"), VStr (s "mediaSingle")); ((s "attrs"), VDict [((s "layout"), VStr (s "center")); ((s "width"), VInt (250)); ((s "widthType"), VStr (s "pixel"))]); ((s "content"), VList [VDict [((s "type"), VStr (s "media")); ((s "attrs"), VDict [((s "width"), VInt (580)); ((s "alt"), VStr (s "this is alt text")); ((s "type"), VStr (s "external")); ((s "localId"), VStr (s "40964c5c-803a-40fe-8971-efe3a0cff3f7")); ((s "url"), VStr (s "https://www.python.org/static/img/python-logo.png")); ((s "height"), VInt (164))]); ((s "marks"), VList [VDict [((s "type"), VStr (s "link")); ((s "attrs"), VDict [((s "href"), VStr (s "https://python.org"))])]])]; VDict [((s "type"), VStr (s "caption")); ((s "attrs"), VDict [((s "localId"), VStr (s "61ef59c9-a5c4-4fdb-b3cc-f9c7ac8eb9ac"))]); ((s "content"), VList [VDict [((s "text"), VStr (s "this is caption text")); ((s "type"), VStr (s "text"))]])]])].

Example seder_node_media_single_url_image_with_caption_and_clickable_link : seder v_node_media_single_url_image_with_caption_and_clickable_link = true.
Proof. vm_compute. reflexivity. Qed.

Example md_node_media_single_url_image_with_caption_and_clickable_link : renders v_node_media_single_url_image_with_caption_and_clickable_link (s "[![this is alt text](https://www.python.org/static/img/python-logo.png)](https://python.org)") = true.
Proof. vm_compute. reflexivity. Qed.

Definition v_node_media_single_uploaded_image : value := VDict [((s "type"), VStr (s "mediaSingle")); ((s "attrs"), VDict [((s "layout"), VStr (s "center")); ((s "width"), VInt (580)); ((s "widthType"), VStr (s "pixel"))]); ((s "content"), VList [VDict [((s "type"), VStr (s "media")); ((s "attrs"), VDict [((s "width"), VInt (580)); ((s "alt"), VStr (s "python-logo.png")); ((s "id"), VStr (s "14407e98-14d3-4d5e-aa66-6a23621d5a85")); ((s "collection"), VStr (s "contentId-653558733")); ((s "type"), VStr (s "file")); ((s "localId"), VStr (s "50f805f9-2e1b-4b07-8507-50358a2578a2")); ((s "height"), VInt (164))])]])].

Example seder_node_media_single_uploaded_image : seder v_node_media_single_uploaded_image = true.
Proof. vm_compute. reflexivity. Qed.

Example md_node_media_single_uploaded_image : renders v_node_media_single_uploaded_image (s "![python-logo.png](media:14407e98-14d3-4d5e-aa66-6a23621d5a85)") = true.
Proof. vm_compute. reflexivity. Qed.

Definition v_node_caption_on_url_image : value := VDict [((s "type"), VStr (s "caption")); ((s "attrs"), VDict [((s "localId"), VStr (s "ea7dce2f-563f-4787-a4c6-88b8354a4801"))]); ((s "content"), VList [VDict [((s "text"), VStr (s "this is caption text")); ((s "type"), VStr (s "text"))]])].

Example seder_node_caption_on_url_image : seder v_node_caption_on_url_image = true.
Proof. vm_compute. reflexivity. Qed.

Example md_node_caption_on_url_image : renders v_node_caption_on_url_image (s "") = true.
Proof. vm_compute. reflexivity. Qed.

Definition v_node_caption_on_uploaded_image : value := VDict [((s "type"), VStr (s "caption")); ((s "attrs"), VDict [((s "localId"), VStr (s "b84f280e-4a73-4a3d-9e8a-1bb95939283a"))]); ((s "content"), VList [VDict [((s "text"), VStr (s "this is caption text")); ((s "type"), VStr (s "text"))]])].

Example seder_node_caption_on_uploaded_image : seder v_node_caption_on_uploaded_image = true.
Proof. vm_compute. reflexivity. Qed.

Example md_node_caption_on_uploaded_image : renders v_node_caption_on_uploaded_image (s "") = true.
Proof. vm_compute. reflexivity. Qed.

Definition v_node_extension_draw_io_diagram : value := VDict [((s "type"), VStr (s "extension")); ((s "attrs"), VDict [((s "layout"), VStr (s "default")); ((s "extensionType"), VStr (s "com.atlassian.ecosystem")); ((s "extensionKey"), VStr (s "1afdce52-d22e-4d27-84db-5be989c3c83b/92d899e8-452f-4c9b-9f60-823ab11c8253/static/drawio")); ((s "text"), VStr (s "draw.io Diagram")); ((s "parameters"), VDict [((s "layout"), VStr (s "extension")); ((s "guestParams"), VDict [((s "zoom"), VInt (100)); ((s "simple"), VBool false); ((s "custContentId"), VStr (s "653492637")); ((s "pageId"), VStr (s "653558733")); ((s "lbox"), VBool true); ((s "diagramDisplayName"), VStr (s "atlas doc format - node media - example draw.io diagram.drawio")); ((s "contentVer"), VInt (1)); ((s "revision"), VInt (1)); ((s "baseUrl"), VStr (s "https://sanhehu.atlassian.net/wiki")); ((s "diagramName"), VStr (s "atlas doc format - node media - example draw.io diagram.drawio")); ((s "pCenter"), VBool false); ((s "width"), VInt (81)); ((s "links"), VStr (s "")); ((s "tbstyle"), VStr (s "")); ((s "height"), VInt (81))]); ((s "forgeEnvironment"), VStr (s "PRODUCTION")); ((s "extensionProperties"), VDict [((s "accountId"), VStr (s "70121:5e8e6032-7f3d-4cfa-a4f7-c1bce3f8f06a")); ((s "extension"), VDict [((s "appVersion"), VStr (s "3.26.0")); ((s "environmentType"), VStr (s "PRODUCTION")); ((s "migrationKey"), VStr (s "com.mxgraph.confluence.plugins.diagramly")); ((s "consentUrl"), VStr (s "https://id.atlassian.com/outboundAuth/start?containerId=1afdce52-d22e-4d27-84db-5be989c3c83b_92d899e8-452f-4c9b-9f60-823ab11c8253&serviceKey=atlassian-token-service-key&cloudId=2e5dd2ac-fe2e-4ff6-b8fb-dd0990d9cd92&isAccountBased=true&scopes=delete%3Aattachment%3Aconfluence+delete%3Acomment%3Aconfluence+delete%3Acustom-content%3Aconfluence+read%3Aattachment%3Aconfluence+read%3Acomment%3Aconfluence+read%3Aconfluence-content.all+read%3Aconfluence-content.permission+read%3Aconfluence-groups+read%3Aconfluence-space.summary+read%3Aconfluence-user+read%3Acontent.metadata%3Aconfluence+read%3Acustom-content%3Aconfluence+read%3Apage%3Aconfluence+read%3Aspace%3Aconfluence+search%3Aconfluence+write%3Aattachment%3Aconfluence+write%3Acomment%3Aconfluence+write%3Aconfluence-content+write%3Aconfluence-file+write%3Aconfluence-space+write%3Acustom-content%3Aconfluence+write%3Apage%3Aconfluence+offline_access")); ((s "dataClassificationPolicyDecision"), VDict [((s "status"), VStr (s "ALLOWED"))]); ((s "type"), VStr (s "xen:macro")); ((s "environmentKey"), VStr (s "production")); ((s "egress"), VList [VDict [((s "addresses"), VList [VStr (s "*")]); ((s "type"), VStr (s "FONTS"))]; VDict [((s "addresses"), VList [VStr (s "*")]); ((s "type"), VStr (s "IMAGES"))]; VDict [((s "addresses"), VList [VStr (s "https://*.1drv.com"); VStr (s "https://*.pusher.com"); VStr (s "https://*.sharepoint.com"); VStr (s "https://*.sharepoint.de"); VStr (s "https://ac.draw.io"); VStr (s "https://drive.google.com"); VStr (s "https://groups.google.com"); VStr (s "https://my.microsoftpersonalcontent.com"); VStr (s "https://raw.githubusercontent.com"); VStr (s "https://www.draw.io"); VStr (s "https://www.drawio.com"); VStr (s "wss://*.pusher.com"); VStr (s "wss://ac.draw.io")]); ((s "type"), VStr (s "FETCH_CLIENT_SIDE"))]; VDict [((s "addresses"), VList [VStr (s "https://accounts.google.com"); VStr (s "https://api.github.com"); VStr (s "https://github.com"); VStr (s "https://graph.microsoft.com"); VStr (s "https://login.microsoftonline.com"); VStr (s "https://oauth2.googleapis.com"); VStr (s "https://www.googleapis.com")]); ((s "type"), VStr (s "FETCH_BACKEND_SIDE"))]]); ((s "license"), VDict [((s "isEvaluation"), VBool false); ((s "ccpEntitlementSlug"), VStr (s "E-43Z-J6W-DDC-NZA")); ((s "ccpEntitlementId"), VStr (s "b2790ef9-d735-3fcb-bdb7-de5c9e0e4639")); ((s "billingPeriod"), VStr (s "MONTHLY")); ((s "subscriptionEndDate"), VStr (s "2026-01-10")); ((s "__typename"), VStr (s "ConfluenceAppInstallationLicense")); ((s "capabilitySet"), VStr (s "capabilityStandard")); ((s "active"), VBool true); ((s "type"), VStr (s "commercial"))]); ((s "environmentId"), VStr (s "92d899e8-452f-4c9b-9f60-823ab11c8253")); ((s "appId"), VStr (s "1afdce52-d22e-4d27-84db-5be989c3c83b")); ((s "scopes"), VList [VStr (s "delete:attachment:confluence"); VStr (s "delete:comment:confluence"); VStr (s "delete:custom-content:confluence"); VStr (s "read:attachment:confluence"); VStr (s "read:comment:confluence"); VStr (s "read:confluence-content.all"); VStr (s "read:confluence-content.permission"); VStr (s "read:confluence-groups"); VStr (s "read:confluence-space.summary"); VStr (s "read:confluence-user"); VStr (s "read:content.metadata:confluence"); VStr (s "read:custom-content:confluence"); VStr (s "read:page:confluence"); VStr (s "read:space:confluence"); VStr (s "search:confluence"); VStr (s "write:attachment:confluence"); VStr (s "write:comment:confluence"); VStr (s "write:confluence-content"); VStr (s "write:confluence-file"); VStr (s "write:confluence-space"); VStr (s "write:custom-content:confluence"); VStr (s "write:page:confluence")]); ((s "id"), VStr (s "ari:cloud:ecosystem::extension/1afdce52-d22e-4d27-84db-5be989c3c83b/92d899e8-452f-4c9b-9f60-823ab11c8253/static/drawio")); ((s "installationId"), VStr (s "974e12cf-a745-4804-ae97-9744a60634f8")); ((s "properties"), VDict [((s "resourceUploadId"), VStr (s "5644984c-3646-40cc-a601-6890f51fb659")); ((s "resource"), VStr (s "editor")); ((s "icon"), VStr (s "https://icon.cdn.prod.atlassian-dev.net/1afdce52-d22e-4d27-84db-5be989c3c83b/92d899e8-452f-4c9b-9f60-823ab11c8253/5644984c-3646-40cc-a601-6890f51fb659/editor/img/drawlogo.svg")); ((s "description"), VStr (s "Inserts a new draw.io diagram")); ((s "adfExport"), VDict [((s "function"), VStr (s "export-key"))]); ((s "type"), VStr (s "xen:macro")); ((s "title"), VStr (s "draw.io Diagram")); ((s "config"), VDict [((s "resource"), VStr (s "editor")); ((s "viewportSize"), VStr (s "max")); ((s "title"), VStr (s "draw.io Editor"))]); ((s "key"), VStr (s "drawio"))]); ((s "key"), VStr (s "drawio"))]); ((s "cloudId"), VStr (s "2e5dd2ac-fe2e-4ff6-b8fb-dd0990d9cd92")); ((s "contextIds"), VList [VStr (s "ari:cloud:confluence:2e5dd2ac-fe2e-4ff6-b8fb-dd0990d9cd92:workspace/23473505-1ea6-46c3-aac0-b897b67d077a")]); ((s "extensionData"), VDict [((s "type"), VStr (s "macro")); ((s "content"), VDict [((s "id"), VStr (s "653558733")); ((s "type"), VStr (s "page"))]); ((s "space"), VDict [((s "id"), VStr (s "653557934")); ((s "key"), VStr (s "GitHubMacHuGWU"))])])]); ((s "localId"), VStr (s "bd55e6b1-454f-4eb7-ad99-8d40fc6ae8fd")); ((s "extensionId"), VStr (s "ari:cloud:ecosystem::extension/1afdce52-d22e-4d27-84db-5be989c3c83b/92d899e8-452f-4c9b-9f60-823ab11c8253/static/drawio")); ((s "extensionTitle"), VStr (s "draw.io Diagram"))]); ((s "localId"), VStr (s "bd55e6b1-454f-4eb7-ad99-8d40fc6ae8fd"))])].

Example seder_node_extension_draw_io_diagram : seder v_node_extension_draw_io_diagram = true.
Proof. vm_compute. reflexivity. Qed.

Example md_node_extension_draw_io_diagram : renders v_node_extension_draw_io_diagram (s "[Extension: 1afdce52-d22e-4d27-84db-5be989c3c83b/92d899e8-452f-4c9b-9f60-823ab11c8253/static/drawio] draw.io Diagram") = true.
Proof. vm_compute. reflexivity. Qed.

Definition v_node_blockquote : value := VDict [((s "type"), VStr (s "blockquote")); ((s "attrs"), VDict [((s "localId"), VStr (s "870b485d-c6e5-414d-8d2e-81385b131b05"))]); ((s "content"), VList [VDict [((s "type"), VStr (s "paragraph")); ((s "attrs"), VDict [((s "localId"), VStr (s "930b14f0-45aa-47a0-911f-beaa22758a84"))]); ((s "content"), VList [VDict [((s "text"), VStr (s "Alice says:")); ((s "type"), VStr (s "text"))]])]; VDict [((s "type"), VStr (s "paragraph")); ((s "attrs"), VDict [((s "localId"), VStr (s "61d50dbc-3d9d-425a-a46d-485d0489b6e9"))]); ((s "content"), VList [VDict [((s "text"), VStr (s "Just do it!")); ((s "type"), VStr (s "text"))]])]])].

Example seder_node_blockquote : seder v_node_blockquote = true.
Proof. vm_compute. reflexivity. Qed.

Example md_node_blockquote : renders v_node_blockquote [62; 32; 65; 108; 105; 99; 101; 32; 115; 97; 121; 115; 58; 10; 62; 32; 10; 62; 32; 74; 117; 115; 116; 32; 100; 111; 32; 105; 116; 33]%N = true.
Proof. vm_compute. reflexivity. Qed.

Definition v_node_panel : value := VDict [((s "type"), VStr (s "panel")); ((s "attrs"), VDict [((s "panelType"), VStr (s "info")); ((s "localId"), VStr (s "e0967b6a-e8fd-48ae-abc3-8f91cd0cbfd3"))]); ((s "content"), VList [VDict [((s "type"), VStr (s "paragraph")); ((s "attrs"), VDict [((s "localId"), VStr (s "a84c8be4-f646-42c5-8f03-ac7ab9381e54"))]); ((s "content"), VList [VDict [((s "text"), VStr (s "This is info")); ((s "type"), VStr (s "text"))]])]])].

Example seder_node_panel : seder v_node_panel = true.
Proof. vm_compute. reflexivity. Qed.

Example md_node_panel : renders v_node_panel [62; 32; 42; 42; 73; 78; 70; 79; 42; 42; 10; 62; 32; 10; 62; 32; 84; 104; 105; 115; 32; 105; 115; 32; 105; 110; 102; 111]%N = true.
Proof. vm_compute. reflexivity. Qed.

Definition v_node_nested_expand_in_expand : value := VDict [((s "type"), VStr (s "nestedExpand")); ((s "attrs"), VDict [((s "title"), VStr (s "level 2 expand title")); ((s "localId"), VStr (s "73c7b926-dc65-4d96-a8d7-4fc4afef4c10"))]); ((s "content"), VList [VDict [((s "type"), VStr (s "paragraph")); ((s "attrs"), VDict [((s "localId"), VStr (s "1f40656f-6df6-42e3-84c7-97e34b7371ab"))]); ((s "content"), VList [VDict [((s "text"), VStr (s "level 2 expand content (level 2 is the max)")); ((s "type"), VStr (s "text"))]])]; VDict [((s "type"), VStr (s "paragraph")); ((s "attrs"), VDict [((s "localId"), VStr (s "b2714fd5-ec68-4587-8f33-9c117e304f2f"))]); ((s "content"), VList [VDict [((s "type"), VStr (s "inlineCard")); ((s "attrs"), VDict [((s "localId"), VStr (s "2dadf850-e7b2-440a-8740-19ba39aa9e95")); ((s "url"), VStr (s "https://example.com"))])]; VDict [((s "text"), VStr (s " ")); ((s "type"), VStr (s "text"))]])]; VDict [((s "type"), VStr (s "panel")); ((s "attrs"), VDict [((s "panelType"), VStr (s "info")); ((s "localId"), VStr (s "2f32e0d3-b4ea-4257-9648-8a5e6bc1c516"))]); ((s "content"), VList [VDict [((s "type"), VStr (s "paragraph")); ((s "attrs"), VDict [((s "localId"), VStr (s "a5b9a66f-9b4f-4f11-be1e-50d8537a4a4a"))]); ((s "content"), VList [VDict [((s "text"), VStr (s "some info")); ((s "type"), VStr (s "text"))]])]])]])].

Example seder_node_nested_expand_in_expand : seder v_node_nested_expand_in_expand = true.
Proof. vm_compute. reflexivity. Qed.

Example md_node_nested_expand_in_expand : renders v_node_nested_expand_in_expand [108; 101; 118; 101; 108; 32; 50; 32; 101; 120; 112; 97; 110; 100; 32; 99; 111; 110; 116; 101; 110; 116; 32; 40; 108; 101; 118; 101; 108; 32; 50; 32; 105; 115; 32; 116; 104; 101; 32; 109; 97; 120; 41; 10; 10; 91; 104; 116; 116; 112; 115; 58; 47; 47; 101; 120; 97; 109; 112; 108; 101; 46; 99; 111; 109; 93; 40; 104; 116; 116; 112; 115; 58; 47; 47; 101; 120; 97; 109; 112; 108; 101; 46; 99; 111; 109; 41; 32; 10; 10; 62; 32; 42; 42; 73; 78; 70; 79; 42; 42; 10; 62; 32; 10; 62; 32; 115; 111; 109; 101; 32; 105; 110; 102; 111]%N = true.
Proof. vm_compute. reflexivity. Qed.

Definition v_node_expand : value := VDict [((s "type"), VStr (s "expand")); ((s "attrs"), VDict [((s "title"), VStr (s "level 1 expand title")); ((s "localId"), VStr (s "0c54deb8-d528-4934-a1ce-45db9185ec17"))]); ((s "content"), VList [VDict [((s "type"), VStr (s "paragraph")); ((s "attrs"), VDict [((s "localId"), VStr (s "ebcae9f5-5aec-47f5-97bf-509c81a9e871"))]); ((s "content"), VList [VDict [((s "text"), VStr (s "level 1 expand content")); ((s "type"), VStr (s "text"))]])]; VDict [((s "type"), VStr (s "bulletList")); ((s "attrs"), VDict [((s "localId"), VStr (s "fdf72148-8dc4-4b13-ad70-ba91f4d36a9a"))]); ((s "content"), VList [VDict [((s "type"), VStr (s "listItem")); ((s "attrs"), VDict [((s "localId"), VStr (s "57f28269-1689-48a2-8696-0a709b67cc38"))]); ((s "content"), VList [VDict [((s "type"), VStr (s "paragraph")); ((s "attrs"), VDict [((s "localId"), VStr (s "781e1fda-81e8-458b-b1cd-9d7bcaa1f87f"))]); ((s "content"), VList [VDict [((s "text"), VStr (s "bullet list")); ((s "type"), VStr (s "text"))]])]])]])]; VDict [((s "type"), VStr (s "blockquote")); ((s "attrs"), VDict [((s "localId"), VStr (s "8847083c-ea78-4d52-a042-e5f8eb1d3477"))]); ((s "content"), VList [VDict [((s "type"), VStr (s "paragraph")); ((s "attrs"), VDict [((s "localId"), VStr (s "8362bbf9-dfdd-4db9-8973-5ebed011017c"))]); ((s "content"), VList [VDict [((s "text"), VStr (s "some quote")); ((s "type"), VStr (s "text"))]])]])]; VDict [((s "type"), VStr (s "nestedExpand")); ((s "attrs"), VDict [((s "title"), VStr (s "level 2 expand title")); ((s "localId"), VStr (s "73c7b926-dc65-4d96-a8d7-4fc4afef4c10"))]); ((s "content"), VList [VDict [((s "type"), VStr (s "paragraph")); ((s "attrs"), VDict [((s "localId"), VStr (s "1f40656f-6df6-42e3-84c7-97e34b7371ab"))]); ((s "content"), VList [VDict [((s "text"), VStr (s "level 2 expand content (level 2 is the max)")); ((s "type"), VStr (s "text"))]])]; VDict [((s "type"), VStr (s "paragraph")); ((s "attrs"), VDict [((s "localId"), VStr (s "b2714fd5-ec68-4587-8f33-9c117e304f2f"))]); ((s "content"), VList [VDict [((s "type"), VStr (s "inlineCard")); ((s "attrs"), VDict [((s "localId"), VStr (s "2dadf850-e7b2-440a-8740-19ba39aa9e95")); ((s "url"), VStr (s "https://example.com"))])]; VDict [((s "text"), VStr (s " ")); ((s "type"), VStr (s "text"))]])]; VDict [((s "type"), VStr (s "panel")); ((s "attrs"), VDict [((s "panelType"), VStr (s "info")); ((s "localId"), VStr (s "2f32e0d3-b4ea-4257-9648-8a5e6bc1c516"))]); ((s "content"), VList [VDict [((s "type"), VStr (s "paragraph")); ((s "attrs"), VDict [((s "localId"), VStr (s "a5b9a66f-9b4f-4f11-be1e-50d8537a4a4a"))]); ((s "content"), VList [VDict [((s "text"), VStr (s "some info")); ((s "type"), VStr (s "text"))]])]])]])]])].

Example seder_node_expand : seder v_node_expand = true.
Proof. vm_compute. reflexivity. Qed.

Example md_node_expand : renders v_node_expand [108; 101; 118; 101; 108; 32; 49; 32; 101; 120; 112; 97; 110; 100; 32; 99; 111; 110; 116; 101; 110; 116; 10; 10; 45; 32; 98; 117; 108; 108; 101; 116; 32; 108; 105; 115; 116; 10; 10; 62; 32; 115; 111; 109; 101; 32; 113; 117; 111; 116; 101; 10; 10; 108; 101; 118; 101; 108; 32; 50; 32; 101; 120; 112; 97; 110; 100; 32; 99; 111; 110; 116; 101; 110; 116; 32; 40; 108; 101; 118; 101; 108; 32; 50; 32; 105; 115; 32; 116; 104; 101; 32; 109; 97; 120; 41; 10; 10; 91; 104; 116; 116; 112; 115; 58; 47; 47; 101; 120; 97; 109; 112; 108; 101; 46; 99; 111; 109; 93; 40; 104; 116; 116; 112; 115; 58; 47; 47; 101; 120; 97; 109; 112; 108; 101; 46; 99; 111; 109; 41; 32; 10; 10; 62; 32; 42; 42; 73; 78; 70; 79; 42; 42; 10; 62; 32; 10; 62; 32; 115; 111; 109; 101; 32; 105; 110; 102; 111]%N = true.
Proof. vm_compute. reflexivity. Qed.

Definition v_node_paragraph : value := VDict [((s "type"), VStr (s "paragraph")); ((s "attrs"), VDict [((s "localId"), VStr (s "381fb3cc-7dce-4ba0-8caa-604d94792ce3"))]); ((s "content"), VList [VDict [((s "text"), VStr (s "This is a ")); ((s "type"), VStr (s "text")); ((s "marks"), VList [VDict [((s "type"), VStr (s "annotation")); ((s "attrs"), VDict [((s "annotationType"), VStr (s "inlineComment")); ((s "id"), VStr (s "c740577e-6648-4c96-9fbb-32aecb654d06"))])]])]; VDict [((s "text"), VStr (s "bolded text")); ((s "type"), VStr (s "text")); ((s "marks"), VList [VDict [((s "type"), VStr (s "annotation")); ((s "attrs"), VDict [((s "annotationType"), VStr (s "inlineComment")); ((s "id"), VStr (s "c740577e-6648-4c96-9fbb-32aecb654d06"))])]; VDict [((s "type"), VStr (s "strong"))]])]; VDict [((s "text"), VStr (s ", do you see that? This is a ")); ((s "type"), VStr (s "text")); ((s "marks"), VList [VDict [((s "type"), VStr (s "annotation")); ((s "attrs"), VDict [((s "annotationType"), VStr (s "inlineComment")); ((s "id"), VStr (s "c740577e-6648-4c96-9fbb-32aecb654d06"))])]])]; VDict [((s "text"), VStr (s "italic text")); ((s "type"), VStr (s "text")); ((s "marks"), VList [VDict [((s "type"), VStr (s "annotation")); ((s "attrs"), VDict [((s "annotationType"), VStr (s "inlineComment")); ((s "id"), VStr (s "c740577e-6648-4c96-9fbb-32aecb654d06"))])]; VDict [((s "type"), VStr (s "em"))]])]; VDict [((s "text"), VStr (s ", do you see that? This is a ")); ((s "type"), VStr (s "text")); ((s "marks"), VList [VDict [((s "type"), VStr (s "annotation")); ((s "attrs"), VDict [((s "annotationType"), VStr (s "inlineComment")); ((s "id"), VStr (s "c740577e-6648-4c96-9fbb-32aecb654d06"))])]])]; VDict [((s "text"), VStr (s "underline")); ((s "type"), VStr (s "text")); ((s "marks"), VList [VDict [((s "type"), VStr (s "annotation")); ((s "attrs"), VDict [((s "annotationType"), VStr (s "inlineComment")); ((s "id"), VStr (s "c740577e-6648-4c96-9fbb-32aecb654d06"))])]; VDict [((s "type"), VStr (s "underline"))]])]; VDict [((s "text"), VStr (s ", do you see that? This is a ")); ((s "type"), VStr (s "text")); ((s "marks"), VList [VDict [((s "type"), VStr (s "annotation")); ((s "attrs"), VDict [((s "annotationType"), VStr (s "inlineComment")); ((s "id"), VStr (s "c740577e-6648-4c96-9fbb-32aecb654d06"))])]])]; VDict [((s "text"), VStr (s "strike through")); ((s "type"), VStr (s "text")); ((s "marks"), VList [VDict [((s "type"), VStr (s "annotation")); ((s "attrs"), VDict [((s "annotationType"), VStr (s "inlineComment")); ((s "id"), VStr (s "c740577e-6648-4c96-9fbb-32aecb654d06"))])]; VDict [((s "type"), VStr (s "strike"))]])]; VDict [((s "text"), VStr (s ", do you see that? This is a ")); ((s "type"), VStr (s "text")); ((s "marks"), VList [VDict [((s "type"), VStr (s "annotation")); ((s "attrs"), VDict [((s "annotationType"), VStr (s "inlineComment")); ((s "id"), VStr (s "c740577e-6648-4c96-9fbb-32aecb654d06"))])]])]; VDict [((s "text"), VStr (s "bolded itlic strike through and underline")); ((s "type"), VStr (s "text")); ((s "marks"), VList [VDict [((s "type"), VStr (s "annotation")); ((s "attrs"), VDict [((s "annotationType"), VStr (s "inlineComment")); ((s "id"), VStr (s "c740577e-6648-4c96-9fbb-32aecb654d06"))])]; VDict [((s "type"), VStr (s "underline"))]; VDict [((s "type"), VStr (s "strike"))]; VDict [((s "type"), VStr (s "strong"))]; VDict [((s "type"), VStr (s "em"))]])]; VDict [((s "text"), VStr (s ", do you see that? This is a ")); ((s "type"), VStr (s "text")); ((s "marks"), VList [VDict [((s "type"), VStr (s "annotation")); ((s "attrs"), VDict [((s "annotationType"), VStr (s "inlineComment")); ((s "id"), VStr (s "c740577e-6648-4c96-9fbb-32aecb654d06"))])]])]; VDict [((s "text"), VStr (s "subscript")); ((s "type"), VStr (s "text")); ((s "marks"), VList [VDict [((s "type"), VStr (s "annotation")); ((s "attrs"), VDict [((s "annotationType"), VStr (s "inlineComment")); ((s "id"), VStr (s "c740577e-6648-4c96-9fbb-32aecb654d06"))])]; VDict [((s "type"), VStr (s "subsup")); ((s "attrs"), VDict [((s "type"), VStr (s "sub"))])]])]; VDict [((s "text"), VStr (s ", do you see that? This is a ")); ((s "type"), VStr (s "text")); ((s "marks"), VList [VDict [((s "type"), VStr (s "annotation")); ((s "attrs"), VDict [((s "annotationType"), VStr (s "inlineComment")); ((s "id"), VStr (s "c740577e-6648-4c96-9fbb-32aecb654d06"))])]])]; VDict [((s "text"), VStr (s "superscript")); ((s "type"), VStr (s "text")); ((s "marks"), VList [VDict [((s "type"), VStr (s "annotation")); ((s "attrs"), VDict [((s "annotationType"), VStr (s "inlineComment")); ((s "id"), VStr (s "c740577e-6648-4c96-9fbb-32aecb654d06"))])]; VDict [((s "type"), VStr (s "subsup")); ((s "attrs"), VDict [((s "type"), VStr (s "sup"))])]])]; VDict [((s "text"), VStr (s ", do you see that? This text has ")); ((s "type"), VStr (s "text")); ((s "marks"), VList [VDict [((s "type"), VStr (s "annotation")); ((s "attrs"), VDict [((s "annotationType"), VStr (s "inlineComment")); ((s "id"), VStr (s "c740577e-6648-4c96-9fbb-32aecb654d06"))])]])]; VDict [((s "text"), VStr (s "color")); ((s "type"), VStr (s "text")); ((s "marks"), VList [VDict [((s "type"), VStr (s "annotation")); ((s "attrs"), VDict [((s "annotationType"), VStr (s "inlineComment")); ((s "id"), VStr (s "c740577e-6648-4c96-9fbb-32aecb654d06"))])]; VDict [((s "type"), VStr (s "textColor")); ((s "attrs"), VDict [((s "color"), VStr (s "#ff5630"))])]])]; VDict [((s "text"), VStr (s ", do you see that? This text has ")); ((s "type"), VStr (s "text")); ((s "marks"), VList [VDict [((s "type"), VStr (s "annotation")); ((s "attrs"), VDict [((s "annotationType"), VStr (s "inlineComment")); ((s "id"), VStr (s "c740577e-6648-4c96-9fbb-32aecb654d06"))])]])]; VDict [((s "text"), VStr (s "background")); ((s "type"), VStr (s "text")); ((s "marks"), VList [VDict [((s "type"), VStr (s "annotation")); ((s "attrs"), VDict [((s "annotationType"), VStr (s "inlineComment")); ((s "id"), VStr (s "c740577e-6648-4c96-9fbb-32aecb654d06"))])]; VDict [((s "type"), VStr (s "backgroundColor")); ((s "attrs"), VDict [((s "color"), VStr (s "#c6edfb"))])]])]; VDict [((s "text"), VStr (s ", do you see that? Note that you can not do Text color and Background color at the same time. This line has code ")); ((s "type"), VStr (s "text")); ((s "marks"), VList [VDict [((s "type"), VStr (s "annotation")); ((s "attrs"), VDict [((s "annotationType"), VStr (s "inlineComment")); ((s "id"), VStr (s "c740577e-6648-4c96-9fbb-32aecb654d06"))])]])]; VDict [((s "text"), VStr (s "a = 1 + 2")); ((s "type"), VStr (s "text")); ((s "marks"), VList [VDict [((s "type"), VStr (s "annotation")); ((s "attrs"), VDict [((s "annotationType"), VStr (s "inlineComment")); ((s "id"), VStr (s "c740577e-6648-4c96-9fbb-32aecb654d06"))])]; VDict [((s "type"), VStr (s "code"))]])]; VDict [((s "text"), VStr (s ".")); ((s "type"), VStr (s "text")); ((s "marks"), VList [VDict [((s "type"), VStr (s "annotation")); ((s "attrs"), VDict [((s "annotationType"), VStr (s "inlineComment")); ((s "id"), VStr (s "c740577e-6648-4c96-9fbb-32aecb654d06"))])]; VDict [((s "type"), VStr (s "strong"))]])]])].

Example seder_node_paragraph : seder v_node_paragraph = true.
Proof. vm_compute. reflexivity. Qed.

Definition v_node_table_simple : value := VDict [((s "type"), VStr (s "table")); ((s "attrs"), VDict [((s "layout"), VStr (s "default")); ((s "width"), VFloat (FFin (760) (0))); ((s "localId"), VStr (s "d15db724-4b20-40a2-9b99-34ae342563ea"))]); ((s "content"), VList [VDict [((s "type"), VStr (s "tableRow")); ((s "attrs"), VDict [((s "localId"), VStr (s "fbeb810a-3b14-4f0e-92de-d5ed7d11c5ba"))]); ((s "content"), VList [VDict [((s "type"), VStr (s "tableHeader")); ((s "attrs"), VDict [((s "colspan"), VInt (1)); ((s "rowspan"), VInt (1)); ((s "localId"), VStr (s "14a6defc-948f-4a38-8b44-d04ce951389e"))]); ((s "content"), VList [VDict [((s "type"), VStr (s "paragraph")); ((s "attrs"), VDict [((s "localId"), VStr (s "a3d3b93d-1c8f-4e32-b32e-f5ed9b861f3c"))]); ((s "content"), VList [VDict [((s "text"), VStr (s "id")); ((s "type"), VStr (s "text")); ((s "marks"), VList [VDict [((s "type"), VStr (s "strong"))]])]])]])]; VDict [((s "type"), VStr (s "tableHeader")); ((s "attrs"), VDict [((s "colspan"), VInt (1)); ((s "rowspan"), VInt (1)); ((s "localId"), VStr (s "a95cd864-07dc-4179-8915-3f9651d6ef86"))]); ((s "content"), VList [VDict [((s "type"), VStr (s "paragraph")); ((s "attrs"), VDict [((s "localId"), VStr (s "05f4e7a0-11b6-4ab1-aeaa-9e13bbcfed06"))]); ((s "content"), VList [VDict [((s "text"), VStr (s "name")); ((s "type"), VStr (s "text")); ((s "marks"), VList [VDict [((s "type"), VStr (s "strong"))]])]])]])]])]; VDict [((s "type"), VStr (s "tableRow")); ((s "attrs"), VDict [((s "localId"), VStr (s "462e018f-a0aa-43dc-9ad7-087511a92a22"))]); ((s "content"), VList [VDict [((s "type"), VStr (s "tableCell")); ((s "attrs"), VDict [((s "colspan"), VInt (1)); ((s "rowspan"), VInt (1)); ((s "localId"), VStr (s "4d47adc6-74a5-4729-b445-ddee10a5b91c"))]); ((s "content"), VList [VDict [((s "type"), VStr (s "paragraph")); ((s "attrs"), VDict [((s "localId"), VStr (s "2ee58bba-e306-4ff0-989d-58db4ed98672"))]); ((s "content"), VList [VDict [((s "text"), VStr (s "1")); ((s "type"), VStr (s "text"))]])]])]; VDict [((s "type"), VStr (s "tableCell")); ((s "attrs"), VDict [((s "colspan"), VInt (1)); ((s "rowspan"), VInt (1)); ((s "localId"), VStr (s "0c3bc89d-5d85-430b-914b-77a236007943"))]); ((s "content"), VList [VDict [((s "type"), VStr (s "paragraph")); ((s "attrs"), VDict [((s "localId"), VStr (s "1943b5d4-11a4-4ee8-add4-45949e7123f7"))]); ((s "content"), VList [VDict [((s "text"), VStr (s "alice")); ((s "type"), VStr (s "text"))]])]])]])]; VDict [((s "type"), VStr (s "tableRow")); ((s "attrs"), VDict [((s "localId"), VStr (s "3e847aac-9588-4b33-aee5-fafb145e58f3"))]); ((s "content"), VList [VDict [((s "type"), VStr (s "tableCell")); ((s "attrs"), VDict [((s "colspan"), VInt (1)); ((s "rowspan"), VInt (1)); ((s "localId"), VStr (s "7ed477fb-c50c-404d-9dbb-447587dab425"))]); ((s "content"), VList [VDict [((s "type"), VStr (s "paragraph")); ((s "attrs"), VDict [((s "localId"), VStr (s "b7296a32-39a6-4014-8f8a-1ce86f2fd02c"))]); ((s "content"), VList [VDict [((s "text"), VStr (s "2")); ((s "type"), VStr (s "text"))]])]])]; VDict [((s "type"), VStr (s "tableCell")); ((s "attrs"), VDict [((s "colspan"), VInt (1)); ((s "rowspan"), VInt (1)); ((s "localId"), VStr (s "e2d33113-2e7b-4f6f-bcff-0e0798122de5"))]); ((s "content"), VList [VDict [((s "type"), VStr (s "paragraph")); ((s "attrs"), VDict [((s "localId"), VStr (s "92930ff9-353c-4a9d-a763-8629cc8818b4"))]); ((s "content"), VList [VDict [((s "text"), VStr (s "bob")); ((s "type"), VStr (s "text"))]])]])]])]])].

Example seder_node_table_simple : seder v_node_table_simple = true.
Proof. vm_compute. reflexivity. Qed.

Example md_node_table_simple : renders v_node_table_simple [124; 32; 42; 42; 105; 100; 42; 42; 60; 98; 114; 62; 32; 124; 32; 42; 42; 110; 97; 109; 101; 42; 42; 60; 98; 114; 62; 32; 124; 10; 124; 32; 45; 45; 45; 32; 124; 32; 45; 45; 45; 32; 124; 10; 124; 32; 49; 60; 98; 114; 62; 32; 124; 32; 97; 108; 105; 99; 101; 60; 98; 114; 62; 32; 124; 10; 124; 32; 50; 60; 98; 114; 62; 32; 124; 32; 98; 111; 98; 60; 98; 114; 62; 32; 124]%N = true.
Proof. vm_compute. reflexivity. Qed.

Definition v_node_table_complicated : value := VDict [((s "type"), VStr (s "table")); ((s "attrs"), VDict [((s "layout"), VStr (s "default")); ((s "width"), VFloat (FFin (760) (0))); ((s "localId"), VStr (s "f4b9a1cf-7954-4053-a9d8-3959261a7e0d"))]); ((s "content"), VList [VDict [((s "type"), VStr (s "tableRow")); ((s "attrs"), VDict [((s "localId"), VStr (s "e2200de2-18ee-4dc0-aee4-607de6a3c16b"))]); ((s "content"), VList [VDict [((s "type"), VStr (s "tableHeader")); ((s "attrs"), VDict [((s "colspan"), VInt (1)); ((s "rowspan"), VInt (1)); ((s "localId"), VStr (s "4ee043e3-b5f2-48b7-8fff-208e10bf0dc7"))]); ((s "content"), VList [VDict [((s "type"), VStr (s "paragraph")); ((s "attrs"), VDict [((s "localId"), VStr (s "274b4378-81e5-40f3-94d5-db9492fb3877"))]); ((s "content"), VList [VDict [((s "text"), VStr (s "col 1")); ((s "type"), VStr (s "text")); ((s "marks"), VList [VDict [((s "type"), VStr (s "strong"))]])]])]; VDict [((s "type"), VStr (s "paragraph")); ((s "attrs"), VDict [((s "localId"), VStr (s "98253ef5-4ab2-4a04-b3b9-eb6a3f336fbf"))]); ((s "content"), VList [VDict [((s "text"), VStr (s "second line")); ((s "type"), VStr (s "text"))]])]])]; VDict [((s "type"), VStr (s "tableHeader")); ((s "attrs"), VDict [((s "colspan"), VInt (1)); ((s "rowspan"), VInt (1)); ((s "localId"), VStr (s "26e4eba3-eb03-4ec7-8715-3277112084cb"))]); ((s "content"), VList [VDict [((s "type"), VStr (s "paragraph")); ((s "attrs"), VDict [((s "localId"), VStr (s "ce048a49-432e-41fe-a708-1fda974a13b5"))]); ((s "content"), VList [VDict [((s "text"), VStr (s "col 2")); ((s "type"), VStr (s "text")); ((s "marks"), VList [VDict [((s "type"), VStr (s "strong"))]])]])]; VDict [((s "type"), VStr (s "paragraph")); ((s "attrs"), VDict [((s "localId"), VStr (s "ad0d8524-4dac-480a-b5a7-689fcb387226"))]); ((s "content"), VList [VDict [((s "text"), VStr (s "second line")); ((s "type"), VStr (s "text"))]])]])]])]; VDict [((s "type"), VStr (s "tableRow")); ((s "attrs"), VDict [((s "localId"), VStr (s "aa78e456-212b-4d5c-9545-14e4f5a9b60c"))]); ((s "content"), VList [VDict [((s "type"), VStr (s "tableCell")); ((s "attrs"), VDict [((s "colspan"), VInt (1)); ((s "rowspan"), VInt (1)); ((s "localId"), VStr (s "f2ae8808-b415-4e50-89a4-3da9fcc7ecce"))]); ((s "content"), VList [VDict [((s "type"), VStr (s "blockquote")); ((s "attrs"), VDict [((s "localId"), VStr (s "5d2eac6e-73b9-4a56-83de-3c2c4da048d5"))]); ((s "content"), VList [VDict [((s "type"), VStr (s "paragraph")); ((s "attrs"), VDict [((s "localId"), VStr (s "7331f4ac-0bc1-40c9-82aa-c19e108b1749"))]); ((s "content"), VList [VDict [((s "text"), VStr (s "abc")); ((s "type"), VStr (s "text"))]])]; VDict [((s "type"), VStr (s "bulletList")); ((s "attrs"), VDict [((s "localId"), VStr (s "227c4e0c-b56d-4f92-b945-20cffc3b776f"))]); ((s "content"), VList [VDict [((s "type"), VStr (s "listItem")); ((s "attrs"), VDict [((s "localId"), VStr (s "86e064a0-f676-4cd1-96ae-969fd8a37d76"))]); ((s "content"), VList [VDict [((s "type"), VStr (s "paragraph")); ((s "attrs"), VDict [((s "localId"), VStr (s "b0d21f78-b0f5-4946-b352-47abc8ebfb33"))]); ((s "content"), VList [VDict [((s "text"), VStr (s "1")); ((s "type"), VStr (s "text"))]])]])]; VDict [((s "type"), VStr (s "listItem")); ((s "attrs"), VDict [((s "localId"), VStr (s "8a2713bc-f506-4f37-b11a-2e7d3158aded"))]); ((s "content"), VList [VDict [((s "type"), VStr (s "paragraph")); ((s "attrs"), VDict [((s "localId"), VStr (s "2ff7f500-57c4-458d-88db-de4ba68fe583"))]); ((s "content"), VList [VDict [((s "text"), VStr (s "2")); ((s "type"), VStr (s "text"))]])]])]])]])]; VDict [((s "type"), VStr (s "paragraph")); ((s "attrs"), VDict [((s "localId"), VStr (s "3f0ea901-7a64-4dfe-b397-5fc62ea6a294"))]); ((s "content"), VList [VDict [((s "text"), VStr (s "another line")); ((s "type"), VStr (s "text"))]])]])]; VDict [((s "type"), VStr (s "tableCell")); ((s "attrs"), VDict [((s "colspan"), VInt (1)); ((s "rowspan"), VInt (1)); ((s "localId"), VStr (s "b840762e-5ab3-44cc-8a8e-9a49769f5cb5"))]); ((s "content"), VList [VDict [((s "type"), VStr (s "panel")); ((s "attrs"), VDict [((s "panelType"), VStr (s "info")); ((s "localId"), VStr (s "b233878e-d233-425a-8876-40db688886ec"))]); ((s "content"), VList [VDict [((s "type"), VStr (s "paragraph")); ((s "attrs"), VDict [((s "localId"), VStr (s "388e43f2-6d10-405b-8578-8da08f69837c"))]); ((s "content"), VList [VDict [((s "text"), VStr (s "efg")); ((s "type"), VStr (s "text"))]])]; VDict [((s "type"), VStr (s "orderedList")); ((s "attrs"), VDict [((s "localId"), VStr (s "83d560ce-842d-4f39-b168-89a868ab409f")); ((s "order"), VInt (1))]); ((s "content"), VList [VDict [((s "type"), VStr (s "listItem")); ((s "attrs"), VDict [((s "localId"), VStr (s "7a951d3d-90a4-4502-9eec-7e8e89e5c702"))]); ((s "content"), VList [VDict [((s "type"), VStr (s "paragraph")); ((s "attrs"), VDict [((s "localId"), VStr (s "a049a6b1-167b-4f37-aee2-7b2b14f70681"))]); ((s "content"), VList [VDict [((s "text"), VStr (s "alice")); ((s "type"), VStr (s "text"))]])]])]; VDict [((s "type"), VStr (s "listItem")); ((s "attrs"), VDict [((s "localId"), VStr (s "0c9df525-8aa8-4f86-afd9-7baa34db22d3"))]); ((s "content"), VList [VDict [((s "type"), VStr (s "paragraph")); ((s "attrs"), VDict [((s "localId"), VStr (s "0f939689-9bdb-4e55-adb4-7c4470ee87ce"))]); ((s "content"), VList [VDict [((s "text"), VStr (s "bob")); ((s "type"), VStr (s "text"))]])]])]])]])]; VDict [((s "type"), VStr (s "paragraph")); ((s "attrs"), VDict [((s "localId"), VStr (s "d12a2da4-a04d-432e-aa38-3cd6366c36c7"))]); ((s "content"), VList [VDict [((s "text"), VStr (s "another line")); ((s "type"), VStr (s "text"))]])]])]])]; VDict [((s "type"), VStr (s "tableRow")); ((s "attrs"), VDict [((s "localId"), VStr (s "2ab1d7f7-1127-43e3-9830-2a7dac152c03"))]); ((s "content"), VList [VDict [((s "type"), VStr (s "tableCell")); ((s "attrs"), VDict [((s "colspan"), VInt (1)); ((s "rowspan"), VInt (1)); ((s "localId"), VStr (s "b815eb2c-f77f-4988-85b1-a470c614dc4c"))]); ((s "content"), VList [VDict [((s "type"), VStr (s "codeBlock")); ((s "attrs"), VDict [((s "localId"), VStr (s "113b12ed-aa35-40a2-897f-605cf0116e59"))]); ((s "content"), VList [VDict [((s "text"), VStr [100; 101; 102; 32; 97; 100; 100; 95; 116; 119; 111; 40; 97; 44; 32; 98; 41; 58; 10; 32; 32; 32; 32; 114; 101; 116; 117; 114; 110; 32; 97; 32; 43; 32; 98]%N); ((s "type"), VStr (s "text"))]])]])]; VDict [((s "type"), VStr (s "tableCell")); ((s "attrs"), VDict [((s "colspan"), VInt (1)); ((s "rowspan"), VInt (1)); ((s "localId"), VStr (s "46275e70-6df3-4e52-88fa-4936c2d9e9a9"))]); ((s "content"), VList [VDict [((s "type"), VStr (s "extension")); ((s "attrs"), VDict [((s "extensionType"), VStr (s "com.atlassian.confluence.migration")); ((s "extensionKey"), VStr (s "nested-table")); ((s "text"), VStr (s "")); ((s "parameters"), VDict [((s "reason"), VStr (s "A table in a table cell can't be created or edited in the new editor.")); ((s "adf"), VStr (s "{""type"":""doc"",""content"":[{""type"":""table"",""attrs"":{""layout"":""default"",""width"":760.0,""localId"":""38b5a3dd-a15a-40b4-b4dc-111797b0d96e""},""content"":[{""type"":""tableRow"",""attrs"":{""localId"":""f57487d5-2b5b-45f9-b859-8d66523b0016""},""content"":[{""type"":""tableHeader"",""attrs"":{""colspan"":1,""rowspan"":1,""localId"":""50dabc05-d9c7-4af9-9cc6-cccc46c06163""},""content"":[{""type"":""paragraph"",""attrs"":{""localId"":""15c149dd-54ba-4751-adcb-0634c7687e38""},""content"":[{""text"":""id"",""type"":""text"",""marks"":[{""type"":""strong""}]}]}]},{""type"":""tableHeader"",""attrs"":{""colspan"":1,""rowspan"":1,""localId"":""90009654-0b26-402b-826e-f17bbc337f60""},""content"":[{""type"":""paragraph"",""attrs"":{""localId"":""e07ee22a-0b4c-4853-bce8-5b18899b7d6f""},""content"":[{""text"":""name"",""type"":""text"",""marks"":[{""type"":""strong""}]}]}]}]},{""type"":""tableRow"",""attrs"":{""localId"":""e12b0fa8-e350-4c65-9d40-4ab1d9c33d31""},""content"":[{""type"":""tableCell"",""attrs"":{""colspan"":1,""rowspan"":1,""localId"":""d6b017aa-399d-43db-a1b6-5ca2b50e5d4f""},""content"":[{""type"":""paragraph"",""attrs"":{""localId"":""b9d1f4dd-c497-427e-bce4-b70ffc5a3d5a""},""content"":[{""text"":""1"",""type"":""text""}]}]},{""type"":""tableCell"",""attrs"":{""colspan"":1,""rowspan"":1,""localId"":""15f12177-f4f0-450b-94df-a82e3eaebcfa""},""content"":[{""type"":""paragraph"",""attrs"":{""localId"":""5ebdce52-4fa4-4b47-8dff-15fde3f548d4""},""content"":[{""text"":""alice"",""type"":""text""}]}]}]},{""type"":""tableRow"",""attrs"":{""localId"":""2236f418-06b4-4b34-9ce4-ec23f7f0587a""},""content"":[{""type"":""tableCell"",""attrs"":{""colspan"":1,""rowspan"":1,""localId"":""853cadd6-35a7-480a-80b7-df38505b5244""},""content"":[{""type"":""paragraph"",""attrs"":{""localId"":""9f3d2f9f-40a5-41ae-a91a-9e734858c4a7""},""content"":[{""text"":""2"",""type"":""text""}]}]},{""type"":""tableCell"",""attrs"":{""colspan"":1,""rowspan"":1,""localId"":""a593faec-43df-4382-a78a-17f795bd2f0a""},""content"":[{""type"":""paragraph"",""attrs"":{""localId"":""c2081d5c-45e4-49a2-92ac-3db9bd4cda30""},""content"":[{""text"":""bob"",""type"":""text""}]}]}]}]}],""version"":1}")); ((s "cxhtml"), VStr (s "<table data-table-width=""760"" data-layout=""default"" ac:local-id=""38b5a3dd-a15a-40b4-b4dc-111797b0d96e""><tbody><tr ac:local-id=""f57487d5-2b5b-45f9-b859-8d66523b0016""><th ac:local-id=""50dabc05-d9c7-4af9-9cc6-cccc46c06163""><p local-id=""15c149dd-54ba-4751-adcb-0634c7687e38""><strong>id</strong></p></th><th ac:local-id=""90009654-0b26-402b-826e-f17bbc337f60""><p local-id=""e07ee22a-0b4c-4853-bce8-5b18899b7d6f""><strong>name</strong></p></th></tr><tr ac:local-id=""e12b0fa8-e350-4c65-9d40-4ab1d9c33d31""><td ac:local-id=""d6b017aa-399d-43db-a1b6-5ca2b50e5d4f""><p local-id=""b9d1f4dd-c497-427e-bce4-b70ffc5a3d5a"">1</p></td><td ac:local-id=""15f12177-f4f0-450b-94df-a82e3eaebcfa""><p local-id=""5ebdce52-4fa4-4b47-8dff-15fde3f548d4"">alice</p></td></tr><tr ac:local-id=""2236f418-06b4-4b34-9ce4-ec23f7f0587a""><td ac:local-id=""853cadd6-35a7-480a-80b7-df38505b5244""><p local-id=""9f3d2f9f-40a5-41ae-a91a-9e734858c4a7"">2</p></td><td ac:local-id=""a593faec-43df-4382-a78a-17f795bd2f0a""><p local-id=""c2081d5c-45e4-49a2-92ac-3db9bd4cda30"">bob</p></td></tr></tbody></table>"))])])]])]])]])].

Example seder_node_table_complicated : seder v_node_table_complicated = true.
Proof. vm_compute. reflexivity. Qed.

Example md_node_table_complicated : renders v_node_table_complicated [124; 32; 42; 42; 99; 111; 108; 32; 49; 42; 42; 60; 98; 114; 62; 115; 101; 99; 111; 110; 100; 32; 108; 105; 110; 101; 60; 98; 114; 62; 32; 124; 32; 42; 42; 99; 111; 108; 32; 50; 42; 42; 60; 98; 114; 62; 115; 101; 99; 111; 110; 100; 32; 108; 105; 110; 101; 60; 98; 114; 62; 32; 124; 10; 124; 32; 45; 45; 45; 32; 124; 32; 45; 45; 45; 32; 124; 10; 124; 32; 62; 32; 97; 98; 99; 60; 98; 114; 62; 62; 32; 60; 98; 114; 62; 62; 32; 45; 32; 49; 60; 98; 114; 62; 62; 32; 45; 32; 50; 60; 98; 114; 62; 60; 98; 114; 62; 97; 110; 111; 116; 104; 101; 114; 32; 108; 105; 110; 101; 60; 98; 114; 62; 32; 124; 32; 62; 32; 42; 42; 73; 78; 70; 79; 42; 42; 60; 98; 114; 62; 62; 32; 60; 98; 114; 62; 62; 32; 101; 102; 103; 60; 98; 114; 62; 62; 32; 60; 98; 114; 62; 62; 32; 49; 46; 32; 97; 108; 105; 99; 101; 60; 98; 114; 62; 62; 32; 50; 46; 32; 98; 111; 98; 60; 98; 114; 62; 60; 98; 114; 62; 97; 110; 111; 116; 104; 101; 114; 32; 108; 105; 110; 101; 60; 98; 114; 62; 32; 124; 10; 124; 32; 96; 96; 96; 60; 98; 114; 62; 100; 101; 102; 32; 97; 100; 100; 95; 116; 119; 111; 40; 97; 44; 32; 98; 41; 58; 60; 98; 114; 62; 38; 110; 98; 115; 112; 59; 38; 110; 98; 115; 112; 59; 38; 110; 98; 115; 112; 59; 38; 110; 98; 115; 112; 59; 114; 101; 116; 117; 114; 110; 32; 97; 32; 43; 32; 98; 60; 98; 114; 62; 96; 96; 96; 32; 124; 32; 91; 69; 120; 116; 101; 110; 115; 105; 111; 110; 58; 32; 99; 111; 109; 46; 97; 116; 108; 97; 115; 115; 105; 97; 110; 46; 99; 111; 110; 102; 108; 117; 101; 110; 99; 101; 46; 109; 105; 103; 114; 97; 116; 105; 111; 110; 47; 110; 101; 115; 116; 101; 100; 45; 116; 97; 98; 108; 101; 93; 32; 124]%N = true.
Proof. vm_compute. reflexivity. Qed.

Definition v_node_table_cell : value := VDict [((s "type"), VStr (s "table")); ((s "attrs"), VDict [((s "layout"), VStr (s "default")); ((s "width"), VFloat (FFin (760) (0))); ((s "localId"), VStr (s "d15db724-4b20-40a2-9b99-34ae342563ea"))]); ((s "content"), VList [VDict [((s "type"), VStr (s "tableRow")); ((s "attrs"), VDict [((s "localId"), VStr (s "fbeb810a-3b14-4f0e-92de-d5ed7d11c5ba"))]); ((s "content"), VList [VDict [((s "type"), VStr (s "tableHeader")); ((s "attrs"), VDict [((s "colspan"), VInt (1)); ((s "rowspan"), VInt (1)); ((s "localId"), VStr (s "14a6defc-948f-4a38-8b44-d04ce951389e"))]); ((s "content"), VList [VDict [((s "type"), VStr (s "paragraph")); ((s "attrs"), VDict [((s "localId"), VStr (s "a3d3b93d-1c8f-4e32-b32e-f5ed9b861f3c"))]); ((s "content"), VList [VDict [((s "text"), VStr (s "id")); ((s "type"), VStr (s "text")); ((s "marks"), VList [VDict [((s "type"), VStr (s "strong"))]])]])]])]; VDict [((s "type"), VStr (s "tableHeader")); ((s "attrs"), VDict [((s "colspan"), VInt (1)); ((s "rowspan"), VInt (1)); ((s "localId"), VStr (s "a95cd864-07dc-4179-8915-3f9651d6ef86"))]); ((s "content"), VList [VDict [((s "type"), VStr (s "paragraph")); ((s "attrs"), VDict [((s "localId"), VStr (s "05f4e7a0-11b6-4ab1-aeaa-9e13bbcfed06"))]); ((s "content"), VList [VDict [((s "text"), VStr (s "name")); ((s "type"), VStr (s "text")); ((s "marks"), VList [VDict [((s "type"), VStr (s "strong"))]])]])]])]])]; VDict [((s "type"), VStr (s "tableRow")); ((s "attrs"), VDict [((s "localId"), VStr (s "462e018f-a0aa-43dc-9ad7-087511a92a22"))]); ((s "content"), VList [VDict [((s "type"), VStr (s "tableCell")); ((s "attrs"), VDict [((s "colspan"), VInt (1)); ((s "rowspan"), VInt (1)); ((s "localId"), VStr (s "4d47adc6-74a5-4729-b445-ddee10a5b91c"))]); ((s "content"), VList [VDict [((s "type"), VStr (s "paragraph")); ((s "attrs"), VDict [((s "localId"), VStr (s "2ee58bba-e306-4ff0-989d-58db4ed98672"))]); ((s "content"), VList [VDict [((s "text"), VStr (s "1")); ((s "type"), VStr (s "text"))]])]])]; VDict [((s "type"), VStr (s "tableCell")); ((s "attrs"), VDict [((s "colspan"), VInt (1)); ((s "rowspan"), VInt (1)); ((s "localId"), VStr (s "0c3bc89d-5d85-430b-914b-77a236007943"))]); ((s "content"), VList [VDict [((s "type"), VStr (s "paragraph")); ((s "attrs"), VDict [((s "localId"), VStr (s "1943b5d4-11a4-4ee8-add4-45949e7123f7"))]); ((s "content"), VList [VDict [((s "text"), VStr (s "alice")); ((s "type"), VStr (s "text"))]])]])]])]; VDict [((s "type"), VStr (s "tableRow")); ((s "attrs"), VDict [((s "localId"), VStr (s "3e847aac-9588-4b33-aee5-fafb145e58f3"))]); ((s "content"), VList [VDict [((s "type"), VStr (s "tableCell")); ((s "attrs"), VDict [((s "colspan"), VInt (1)); ((s "rowspan"), VInt (1)); ((s "localId"), VStr (s "7ed477fb-c50c-404d-9dbb-447587dab425"))]); ((s "content"), VList [VDict [((s "type"), VStr (s "paragraph")); ((s "attrs"), VDict [((s "localId"), VStr (s "b7296a32-39a6-4014-8f8a-1ce86f2fd02c"))]); ((s "content"), VList [VDict [((s "text"), VStr (s "2")); ((s "type"), VStr (s "text"))]])]])]; VDict [((s "type"), VStr (s "tableCell")); ((s "attrs"), VDict [((s "colspan"), VInt (1)); ((s "rowspan"), VInt (1)); ((s "localId"), VStr (s "e2d33113-2e7b-4f6f-bcff-0e0798122de5"))]); ((s "content"), VList [VDict [((s "type"), VStr (s "paragraph")); ((s "attrs"), VDict [((s "localId"), VStr (s "92930ff9-353c-4a9d-a763-8629cc8818b4"))]); ((s "content"), VList [VDict [((s "text"), VStr (s "bob")); ((s "type"), VStr (s "text"))]])]])]])]])].

Example seder_node_table_cell : seder v_node_table_cell = true.
Proof. vm_compute. reflexivity. Qed.

Definition v_node_table_header : value := VDict [((s "type"), VStr (s "table")); ((s "attrs"), VDict [((s "layout"), VStr (s "default")); ((s "width"), VFloat (FFin (760) (0))); ((s "localId"), VStr (s "d15db724-4b20-40a2-9b99-34ae342563ea"))]); ((s "content"), VList [VDict [((s "type"), VStr (s "tableRow")); ((s "attrs"), VDict [((s "localId"), VStr (s "fbeb810a-3b14-4f0e-92de-d5ed7d11c5ba"))]); ((s "content"), VList [VDict [((s "type"), VStr (s "tableHeader")); ((s "attrs"), VDict [((s "colspan"), VInt (1)); ((s "rowspan"), VInt (1)); ((s "localId"), VStr (s "14a6defc-948f-4a38-8b44-d04ce951389e"))]); ((s "content"), VList [VDict [((s "type"), VStr (s "paragraph")); ((s "attrs"), VDict [((s "localId"), VStr (s "a3d3b93d-1c8f-4e32-b32e-f5ed9b861f3c"))]); ((s "content"), VList [VDict [((s "text"), VStr (s "id")); ((s "type"), VStr (s "text")); ((s "marks"), VList [VDict [((s "type"), VStr (s "strong"))]])]])]])]; VDict [((s "type"), VStr (s "tableHeader")); ((s "attrs"), VDict [((s "colspan"), VInt (1)); ((s "rowspan"), VInt (1)); ((s "localId"), VStr (s "a95cd864-07dc-4179-8915-3f9651d6ef86"))]); ((s "content"), VList [VDict [((s "type"), VStr (s "paragraph")); ((s "attrs"), VDict [((s "localId"), VStr (s "05f4e7a0-11b6-4ab1-aeaa-9e13bbcfed06"))]); ((s "content"), VList [VDict [((s "text"), VStr (s "name")); ((s "type"), VStr (s "text")); ((s "marks"), VList [VDict [((s "type"), VStr (s "strong"))]])]])]])]])]; VDict [((s "type"), VStr (s "tableRow")); ((s "attrs"), VDict [((s "localId"), VStr (s "462e018f-a0aa-43dc-9ad7-087511a92a22"))]); ((s "content"), VList [VDict [((s "type"), VStr (s "tableCell")); ((s "attrs"), VDict [((s "colspan"), VInt (1)); ((s "rowspan"), VInt (1)); ((s "localId"), VStr (s "4d47adc6-74a5-4729-b445-ddee10a5b91c"))]); ((s "content"), VList [VDict [((s "type"), VStr (s "paragraph")); ((s "attrs"), VDict [((s "localId"), VStr (s "2ee58bba-e306-4ff0-989d-58db4ed98672"))]); ((s "content"), VList [VDict [((s "text"), VStr (s "1")); ((s "type"), VStr (s "text"))]])]])]; VDict [((s "type"), VStr (s "tableCell")); ((s "attrs"), VDict [((s "colspan"), VInt (1)); ((s "rowspan"), VInt (1)); ((s "localId"), VStr (s "0c3bc89d-5d85-430b-914b-77a236007943"))]); ((s "content"), VList [VDict [((s "type"), VStr (s "paragraph")); ((s "attrs"), VDict [((s "localId"), VStr (s "1943b5d4-11a4-4ee8-add4-45949e7123f7"))]); ((s "content"), VList [VDict [((s "text"), VStr (s "alice")); ((s "type"), VStr (s "text"))]])]])]])]; VDict [((s "type"), VStr (s "tableRow")); ((s "attrs"), VDict [((s "localId"), VStr (s "3e847aac-9588-4b33-aee5-fafb145e58f3"))]); ((s "content"), VList [VDict [((s "type"), VStr (s "tableCell")); ((s "attrs"), VDict [((s "colspan"), VInt (1)); ((s "rowspan"), VInt (1)); ((s "localId"), VStr (s "7ed477fb-c50c-404d-9dbb-447587dab425"))]); ((s "content"), VList [VDict [((s "type"), VStr (s "paragraph")); ((s "attrs"), VDict [((s "localId"), VStr (s "b7296a32-39a6-4014-8f8a-1ce86f2fd02c"))]); ((s "content"), VList [VDict [((s "text"), VStr (s "2")); ((s "type"), VStr (s "text"))]])]])]; VDict [((s "type"), VStr (s "tableCell")); ((s "attrs"), VDict [((s "colspan"), VInt (1)); ((s "rowspan"), VInt (1)); ((s "localId"), VStr (s "e2d33113-2e7b-4f6f-bcff-0e0798122de5"))]); ((s "content"), VList [VDict [((s "type"), VStr (s "paragraph")); ((s "attrs"), VDict [((s "localId"), VStr (s "92930ff9-353c-4a9d-a763-8629cc8818b4"))]); ((s "content"), VList [VDict [((s "text"), VStr (s "bob")); ((s "type"), VStr (s "text"))]])]])]])]])].

Example seder_node_table_header : seder v_node_table_header = true.
Proof. vm_compute. reflexivity. Qed.

Definition v_node_table_row : value := VDict [((s "type"), VStr (s "table")); ((s "attrs"), VDict [((s "layout"), VStr (s "default")); ((s "width"), VFloat (FFin (760) (0))); ((s "localId"), VStr (s "d15db724-4b20-40a2-9b99-34ae342563ea"))]); ((s "content"), VList [VDict [((s "type"), VStr (s "tableRow")); ((s "attrs"), VDict [((s "localId"), VStr (s "fbeb810a-3b14-4f0e-92de-d5ed7d11c5ba"))]); ((s "content"), VList [VDict [((s "type"), VStr (s "tableHeader")); ((s "attrs"), VDict [((s "colspan"), VInt (1)); ((s "rowspan"), VInt (1)); ((s "localId"), VStr (s "14a6defc-948f-4a38-8b44-d04ce951389e"))]); ((s "content"), VList [VDict [((s "type"), VStr (s "paragraph")); ((s "attrs"), VDict [((s "localId"), VStr (s "a3d3b93d-1c8f-4e32-b32e-f5ed9b861f3c"))]); ((s "content"), VList [VDict [((s "text"), VStr (s "id")); ((s "type"), VStr (s "text")); ((s "marks"), VList [VDict [((s "type"), VStr (s "strong"))]])]])]])]; VDict [((s "type"), VStr (s "tableHeader")); ((s "attrs"), VDict [((s "colspan"), VInt (1)); ((s "rowspan"), VInt (1)); ((s "localId"), VStr (s "a95cd864-07dc-4179-8915-3f9651d6ef86"))]); ((s "content"), VList [VDict [((s "type"), VStr (s "paragraph")); ((s "attrs"), VDict [((s "localId"), VStr (s "05f4e7a0-11b6-4ab1-aeaa-9e13bbcfed06"))]); ((s "content"), VList [VDict [((s "text"), VStr (s "name")); ((s "type"), VStr (s "text")); ((s "marks"), VList [VDict [((s "type"), VStr (s "strong"))]])]])]])]])]; VDict [((s "type"), VStr (s "tableRow")); ((s "attrs"), VDict [((s "localId"), VStr (s "462e018f-a0aa-43dc-9ad7-087511a92a22"))]); ((s "content"), VList [VDict [((s "type"), VStr (s "tableCell")); ((s "attrs"), VDict [((s "colspan"), VInt (1)); ((s "rowspan"), VInt (1)); ((s "localId"), VStr (s "4d47adc6-74a5-4729-b445-ddee10a5b91c"))]); ((s "content"), VList [VDict [((s "type"), VStr (s "paragraph")); ((s "attrs"), VDict [((s "localId"), VStr (s "2ee58bba-e306-4ff0-989d-58db4ed98672"))]); ((s "content"), VList [VDict [((s "text"), VStr (s "1")); ((s "type"), VStr (s "text"))]])]])]; VDict [((s "type"), VStr (s "tableCell")); ((s "attrs"), VDict [((s "colspan"), VInt (1)); ((s "rowspan"), VInt (1)); ((s "localId"), VStr (s "0c3bc89d-5d85-430b-914b-77a236007943"))]); ((s "content"), VList [VDict [((s "type"), VStr (s "paragraph")); ((s "attrs"), VDict [((s "localId"), VStr (s "1943b5d4-11a4-4ee8-add4-45949e7123f7"))]); ((s "content"), VList [VDict [((s "text"), VStr (s "alice")); ((s "type"), VStr (s "text"))]])]])]])]; VDict [((s "type"), VStr (s "tableRow")); ((s "attrs"), VDict [((s "localId"), VStr (s "3e847aac-9588-4b33-aee5-fafb145e58f3"))]); ((s "content"), VList [VDict [((s "type"), VStr (s "tableCell")); ((s "attrs"), VDict [((s "colspan"), VInt (1)); ((s "rowspan"), VInt (1)); ((s "localId"), VStr (s "7ed477fb-c50c-404d-9dbb-447587dab425"))]); ((s "content"), VList [VDict [((s "type"), VStr (s "paragraph")); ((s "attrs"), VDict [((s "localId"), VStr (s "b7296a32-39a6-4014-8f8a-1ce86f2fd02c"))]); ((s "content"), VList [VDict [((s "text"), VStr (s "2")); ((s "type"), VStr (s "text"))]])]])]; VDict [((s "type"), VStr (s "tableCell")); ((s "attrs"), VDict [((s "colspan"), VInt (1)); ((s "rowspan"), VInt (1)); ((s "localId"), VStr (s "e2d33113-2e7b-4f6f-bcff-0e0798122de5"))]); ((s "content"), VList [VDict [((s "type"), VStr (s "paragraph")); ((s "attrs"), VDict [((s "localId"), VStr (s "92930ff9-353c-4a9d-a763-8629cc8818b4"))]); ((s "content"), VList [VDict [((s "text"), VStr (s "bob")); ((s "type"), VStr (s "text"))]])]])]])]])].

Example seder_node_table_row : seder v_node_table_row = true.
Proof. vm_compute. reflexivity. Qed.

Definition v_node_doc : value := VDict [((s "type"), VStr (s "doc")); ((s "content"), VList [VDict [((s "type"), VStr (s "paragraph")); ((s "attrs"), VDict [((s "localId"), VStr (s "6f942bab-7a8c-42c7-8b03-269f37e134f9"))]); ((s "content"), VList [VDict [((s "text"), VStr (s "This document is purposely built for creating a software to parse Atlassian Document Format JSON.")); ((s "type"), VStr (s "text"))]])]; VDict [((s "type"), VStr (s "paragraph")); ((s "attrs"), VDict [((s "localId"), VStr (s "76ac8df3-8726-4c9a-9620-c7c3088282a6"))]); ((s "content"), VList [VDict [((s "text"), VStr (s "This is a table of content")); ((s "type"), VStr (s "text"))]])]; VDict [((s "type"), VStr (s "extension")); ((s "attrs"), VDict [((s "layout"), VStr (s "default")); ((s "extensionType"), VStr (s "com.atlassian.confluence.macro.core")); ((s "extensionKey"), VStr (s "toc")); ((s "parameters"), VDict [((s "macroParams"), VDict [((s "style"), VDict [((s "value"), VStr (s "none"))])]); ((s "macroMetadata"), VDict [((s "macroId"), VDict [((s "value"), VStr (s "7bf8796e-8ded-4582-ad11-e0ffbe684290"))]); ((s "schemaVersion"), VDict [((s "value"), VStr (s "1"))]); ((s "title"), VStr (s "Table of Contents"))])]); ((s "localId"), VStr (s "e2e68531-61d3-4b85-ae1e-df9c4ff3ca74"))])]; VDict [((s "type"), VStr (s "heading")); ((s "attrs"), VDict [((s "level"), VInt (1)); ((s "localId"), VStr (s "43c9583e-41f1-422c-a241-d878e7835371"))]); ((s "content"), VList [VDict [((s "text"), VStr (s "Text and Paragraph")); ((s "type"), VStr (s "text"))]])]; VDict [((s "type"), VStr (s "heading")); ((s "attrs"), VDict [((s "level"), VInt (2)); ((s "localId"), VStr (s "c3ab2828-5749-4663-a458-4ee66709fabb"))]); ((s "content"), VList [VDict [((s "text"), VStr (s "Text and Paragraph 28d8c0")); ((s "type"), VStr (s "text"))]])]; VDict [((s "type"), VStr (s "paragraph")); ((s "attrs"), VDict [((s "localId"), VStr (s "6927b0cd-01d4-42ed-9ed7-0905e322ceab"))]); ((s "content"), VList [VDict [((s "text"), VStr (s "This is a simple sentence 761ec2.")); ((s "type"), VStr (s "text"))]])]; VDict [((s "type"), VStr (s "paragraph")); ((s "attrs"), VDict [((s "localId"), VStr (s "da076755-a8b4-415c-beb0-e0d402995653"))]); ((s "content"), VList [VDict [((s "text"), VStr (s "This is a simple sentence 17adc1.")); ((s "type"), VStr (s "text"))]])]; VDict [((s "type"), VStr (s "paragraph")); ((s "attrs"), VDict [((s "localId"), VStr (s "f60654b6-fd8a-43df-a9df-a5f159fcbae8"))])]; VDict [((s "type"), VStr (s "paragraph")); ((s "attrs"), VDict [((s "localId"), VStr (s "87d79091-e67d-4a93-bf5d-78911978e72a"))]); ((s "content"), VList [VDict [((s "text"), VStr (s "This is a simple sentence 9c9c4f, there is a empty line above this.")); ((s "type"), VStr (s "text"))]])]; VDict [((s "type"), VStr (s "paragraph")); ((s "attrs"), VDict [((s "localId"), VStr (s "ecfbda34-f17e-43ce-aa08-373fa28b7d51"))]); ((s "content"), VList [VDict [((s "text"), VStr (s "This is a simple paragraph c3f610, This is a simple paragraph, This is a simple paragraph, This is a simple paragraph, This is a simple paragraph, This is a simple paragraph, This is a simple paragraph, This is a simple paragraph, This is a simple paragraph, This is a simple paragraph.")); ((s "type"), VStr (s "text"))]])]; VDict [((s "type"), VStr (s "paragraph")); ((s "attrs"), VDict [((s "localId"), VStr (s "9dc55b4f-e121-47a9-b0d6-0f2963182900"))]); ((s "content"), VList [VDict [((s "text"), VStr (s "This is a simple paragraph 9af9a0, This is a simple paragraph, This is a simple paragraph, This is a simple paragraph, This is a simple paragraph, This is a simple paragraph, This is a simple paragraph, This is a simple paragraph, This is a simple paragraph, This is a simple paragraph.")); ((s "type"), VStr (s "text"))]])]; VDict [((s "type"), VStr (s "paragraph")); ((s "attrs"), VDict [((s "localId"), VStr (s "b904ae0c-0234-4edc-b7cb-9dca3bcb739a"))])]; VDict [((s "type"), VStr (s "paragraph")); ((s "attrs"), VDict [((s "localId"), VStr (s "6140d8a2-6b36-4079-a00c-ab12e1fd9552"))]); ((s "content"), VList [VDict [((s "text"), VStr (s "This is a simple paragraph ff2fa6, This is a simple paragraph, This is a simple paragraph, This is a simple paragraph, This is a simple paragraph, This is a simple paragraph, This is a simple paragraph, This is a simple paragraph, This is a simple paragraph, This is a simple paragraph, there is a empty line above this.")); ((s "type"), VStr (s "text"))]])]; VDict [((s "type"), VStr (s "heading")); ((s "attrs"), VDict [((s "level"), VInt (2)); ((s "localId"), VStr (s "474e7c26-966d-48bd-90d9-4564b4360354"))]); ((s "content"), VList [VDict [((s "text"), VStr (s "Text Style and Format e0dfeb")); ((s "type"), VStr (s "text"))]])]; VDict [((s "type"), VStr (s "paragraph")); ((s "attrs"), VDict [((s "localId"), VStr (s "4aa51e3b-a8ae-491e-b252-d26b5fe059c9"))]); ((s "content"), VList [VDict [((s "text"), VStr (s "This is a ")); ((s "type"), VStr (s "text"))]; VDict [((s "text"), VStr (s "bolded text")); ((s "type"), VStr (s "text")); ((s "marks"), VList [VDict [((s "type"), VStr (s "strong"))]])]; VDict [((s "text"), VStr (s ", do you see that?")); ((s "type"), VStr (s "text"))]])]; VDict [((s "type"), VStr (s "paragraph")); ((s "attrs"), VDict [((s "localId"), VStr (s "e84cd648-9cc1-4fd6-9a46-3cc187ab42a1"))]); ((s "content"), VList [VDict [((s "text"), VStr (s "This is a ")); ((s "type"), VStr (s "text"))]; VDict [((s "text"), VStr (s "italic text")); ((s "type"), VStr (s "text")); ((s "marks"), VList [VDict [((s "type"), VStr (s "em"))]])]; VDict [((s "text"), VStr (s ", do you see that?")); ((s "type"), VStr (s "text"))]])]; VDict [((s "type"), VStr (s "paragraph")); ((s "attrs"), VDict [((s "localId"), VStr (s "5db7d378-85a7-49ad-98f1-315a285260d1"))]); ((s "content"), VList [VDict [((s "text"), VStr (s "This is a ")); ((s "type"), VStr (s "text"))]; VDict [((s "text"), VStr (s "underline")); ((s "type"), VStr (s "text")); ((s "marks"), VList [VDict [((s "type"), VStr (s "underline"))]])]; VDict [((s "text"), VStr (s ", do you see that?")); ((s "type"), VStr (s "text"))]])]; VDict [((s "type"), VStr (s "paragraph")); ((s "attrs"), VDict [((s "localId"), VStr (s "77adbbdc-0bc8-4987-ad6a-b5dfa18c6211"))]); ((s "content"), VList [VDict [((s "text"), VStr (s "This is a ")); ((s "type"), VStr (s "text"))]; VDict [((s "text"), VStr (s "strike through")); ((s "type"), VStr (s "text")); ((s "marks"), VList [VDict [((s "type"), VStr (s "strike"))]])]; VDict [((s "text"), VStr (s ", do you see that?")); ((s "type"), VStr (s "text"))]])]; VDict [((s "type"), VStr (s "paragraph")); ((s "attrs"), VDict [((s "localId"), VStr (s "21b9c542-d943-4ad8-8718-009a726b92bf"))]); ((s "content"), VList [VDict [((s "text"), VStr (s "This is a ")); ((s "type"), VStr (s "text"))]; VDict [((s "text"), VStr (s "bolded itlic strike through and underline")); ((s "type"), VStr (s "text")); ((s "marks"), VList [VDict [((s "type"), VStr (s "underline"))]; VDict [((s "type"), VStr (s "strike"))]; VDict [((s "type"), VStr (s "strong"))]; VDict [((s "type"), VStr (s "em"))]])]; VDict [((s "text"), VStr (s ", do you see that?")); ((s "type"), VStr (s "text"))]])]; VDict [((s "type"), VStr (s "paragraph")); ((s "attrs"), VDict [((s "localId"), VStr (s "a4495a71-e4af-48c3-83f7-649d4362f398"))]); ((s "content"), VList [VDict [((s "text"), VStr (s "This is a ")); ((s "type"), VStr (s "text"))]; VDict [((s "text"), VStr (s "subscript")); ((s "type"), VStr (s "text")); ((s "marks"), VList [VDict [((s "type"), VStr (s "subsup")); ((s "attrs"), VDict [((s "type"), VStr (s "sub"))])]])]; VDict [((s "text"), VStr (s ", do you see that?")); ((s "type"), VStr (s "text"))]])]; VDict [((s "type"), VStr (s "paragraph")); ((s "attrs"), VDict [((s "localId"), VStr (s "bb9c0341-69f4-4fc6-bf09-95c73245d4e6"))]); ((s "content"), VList [VDict [((s "text"), VStr (s "This is a ")); ((s "type"), VStr (s "text"))]; VDict [((s "text"), VStr (s "superscript")); ((s "type"), VStr (s "text")); ((s "marks"), VList [VDict [((s "type"), VStr (s "subsup")); ((s "attrs"), VDict [((s "type"), VStr (s "sup"))])]])]; VDict [((s "text"), VStr (s ", do you see that?")); ((s "type"), VStr (s "text"))]])]; VDict [((s "type"), VStr (s "paragraph")); ((s "attrs"), VDict [((s "localId"), VStr (s "f4d1d3bf-3393-4efe-b7bf-4ee19fdb12dc"))]); ((s "content"), VList [VDict [((s "text"), VStr (s "This text has ")); ((s "type"), VStr (s "text"))]; VDict [((s "text"), VStr (s "color")); ((s "type"), VStr (s "text")); ((s "marks"), VList [VDict [((s "type"), VStr (s "textColor")); ((s "attrs"), VDict [((s "color"), VStr (s "#ff5630"))])]])]; VDict [((s "text"), VStr (s ", do you see that?")); ((s "type"), VStr (s "text"))]])]; VDict [((s "type"), VStr (s "paragraph")); ((s "attrs"), VDict [((s "localId"), VStr (s "ff35ad69-a734-4acc-9ef8-bec0edcfad5d"))]); ((s "content"), VList [VDict [((s "text"), VStr (s "This text has ")); ((s "type"), VStr (s "text"))]; VDict [((s "text"), VStr (s "background")); ((s "type"), VStr (s "text")); ((s "marks"), VList [VDict [((s "type"), VStr (s "backgroundColor")); ((s "attrs"), VDict [((s "color"), VStr (s "#c6edfb"))])]])]; VDict [((s "text"), VStr (s ", do you see that?")); ((s "type"), VStr (s "text"))]])]; VDict [((s "type"), VStr (s "paragraph")); ((s "attrs"), VDict [((s "localId"), VStr (s "531941f1-c782-4f5a-9f5a-f6a223c58cff"))]); ((s "content"), VList [VDict [((s "text"), VStr (s "Note that you can not do Text color and Background color at the same time.")); ((s "type"), VStr (s "text"))]])]; VDict [((s "type"), VStr (s "paragraph")); ((s "attrs"), VDict [((s "localId"), VStr (s "83227b4c-12c7-4200-82c9-c6b5c72ee30e"))]); ((s "content"), VList [VDict [((s "text"), VStr (s "This line has code ")); ((s "type"), VStr (s "text"))]; VDict [((s "text"), VStr (s "a = 1 + 2")); ((s "type"), VStr (s "text")); ((s "marks"), VList [VDict [((s "type"), VStr (s "code"))]])]; VDict [((s "text"), VStr (s ".")); ((s "type"), VStr (s "text")); ((s "marks"), VList [VDict [((s "type"), VStr (s "strong"))]])]])]; VDict [((s "type"), VStr (s "heading")); ((s "attrs"), VDict [((s "level"), VInt (2)); ((s "localId"), VStr (s "f4435477-1920-4f6c-a001-af88d7082296"))]); ((s "content"), VList [VDict [((s "text"), VStr (s "Hyper Link")); ((s "type"), VStr (s "text"))]])]; VDict [((s "type"), VStr (s "paragraph")); ((s "attrs"), VDict [((s "localId"), VStr (s "17ab1c58-d162-4891-b376-f86dc14b2790"))]); ((s "content"), VList [VDict [((s "text"), VStr (s "This line has titled hyperlink ")); ((s "type"), VStr (s "text"))]; VDict [((s "text"), VStr (s "Atlas Doc Format")); ((s "type"), VStr (s "text")); ((s "marks"), VList [VDict [((s "type"), VStr (s "link")); ((s "attrs"), VDict [((s "href"), VStr (s "https://developer.atlassian.com/cloud/jira/platform/apis/document/structure/"))])]])]; VDict [((s "text"), VStr (s ".")); ((s "type"), VStr (s "text"))]])]; VDict [((s "type"), VStr (s "paragraph")); ((s "attrs"), VDict [((s "localId"), VStr (s "188efd72-5121-4932-9b8a-d3c376c1b7f8"))]); ((s "content"), VList [VDict [((s "text"), VStr (s "This line has url hyperlink ")); ((s "type"), VStr (s "text"))]; VDict [((s "type"), VStr (s "inlineCard")); ((s "attrs"), VDict [((s "url"), VStr (s "https://developer.atlassian.com/cloud/jira/platform/apis/document/structure/"))])]; VDict [((s "text"), VStr (s "  ")); ((s "type"), VStr (s "text"))]])]; VDict [((s "type"), VStr (s "paragraph")); ((s "attrs"), VDict [((s "localId"), VStr (s "30f22caa-8191-49d5-ad35-02b9e7a39d9b"))]); ((s "content"), VList [VDict [((s "text"), VStr (s "This line has inline hyperlink ")); ((s "type"), VStr (s "text"))]; VDict [((s "type"), VStr (s "inlineCard")); ((s "attrs"), VDict [((s "localId"), VStr (s "c3251be5-0d37-4c09-bc98-ddc4ca11b353")); ((s "url"), VStr (s "https://developer.atlassian.com/cloud/jira/platform/apis/document/structure/"))])]; VDict [((s "text"), VStr (s "  ")); ((s "type"), VStr (s "text"))]])]; VDict [((s "type"), VStr (s "paragraph")); ((s "attrs"), VDict [((s "localId"), VStr (s "1b15a42e-3b17-435f-91d1-ff13e494eee7"))]); ((s "content"), VList [VDict [((s "text"), VStr (s "This line has card hyperlink ")); ((s "type"), VStr (s "text"))]])]; VDict [((s "type"), VStr (s "paragraph")); ((s "attrs"), VDict [((s "localId"), VStr (s "d8392ede-e826-46f2-9b72-38ae2f2c5545"))]); ((s "content"), VList [VDict [((s "type"), VStr (s "inlineCard")); ((s "attrs"), VDict [((s "localId"), VStr (s "9de554a4-4480-40f8-b7ea-faf378879998")); ((s "url"), VStr (s "https://developer.atlassian.com/cloud/jira/platform/apis/document/structure/"))])]])]; VDict [((s "type"), VStr (s "paragraph")); ((s "attrs"), VDict [((s "localId"), VStr (s "2e0251dc-6dd3-43a4-a76d-6880dbfe856e"))]); ((s "content"), VList [VDict [((s "text"), VStr (s "This line has emoji ")); ((s "type"), VStr (s "text"))]; VDict [((s "type"), VStr (s "emoji")); ((s "attrs"), VDict [((s "id"), VStr (s "1f4dd")); ((s "text"), VStr [128221]%N); ((s "shortName"), VStr (s ":pencil:")); ((s "localId"), VStr (s "95bddea2-367a-4a68-bdc3-237cd8a16bc4"))])]; VDict [((s "text"), VStr (s " .")); ((s "type"), VStr (s "text"))]])]; VDict [((s "type"), VStr (s "paragraph")); ((s "attrs"), VDict [((s "localId"), VStr (s "3f4a8870-9d5b-4eef-b5f6-63aba994e879"))]); ((s "content"), VList [VDict [((s "text"), VStr (s "This line at ")); ((s "type"), VStr (s "text"))]; VDict [((s "type"), VStr (s "mention")); ((s "attrs"), VDict [((s "id"), VStr (s "70121:5e8e6032-7f3d-4cfa-a4f7-c1bce3f8f06a")); ((s "localId"), VStr (s "7f068794-757a-4a18-a672-70f6412721a4")); ((s "text"), VStr (s "@machu"))])]; VDict [((s "text"), VStr (s " for something.")); ((s "type"), VStr (s "text"))]])]; VDict [((s "type"), VStr (s "heading")); ((s "attrs"), VDict [((s "level"), VInt (1)); ((s "localId"), VStr (s "52261f00-f416-4a65-aa78-464d63fe4abb"))]); ((s "content"), VList [VDict [((s "text"), VStr (s "Bullet List b2abc0")); ((s "type"), VStr (s "text"))]])]; VDict [((s "type"), VStr (s "heading")); ((s "attrs"), VDict [((s "level"), VInt (2)); ((s "localId"), VStr (s "7a5d992f-ec1d-40de-859a-42183f12d50e"))]); ((s "content"), VList [VDict [((s "text"), VStr (s "Simple Bullet List")); ((s "type"), VStr (s "text"))]])]; VDict [((s "type"), VStr (s "paragraph")); ((s "attrs"), VDict [((s "localId"), VStr (s "3a52728c-42a8-4d41-a447-3cdabbcb0ad8"))]); ((s "content"), VList [VDict [((s "text"), VStr (s "bullet list 1 a50f00")); ((s "type"), VStr (s "text"))]])]; VDict [((s "type"), VStr (s "bulletList")); ((s "attrs"), VDict [((s "localId"), VStr (s "8151fd44-382d-44f5-a9b7-dc11323b0cd4"))]); ((s "content"), VList [VDict [((s "type"), VStr (s "listItem")); ((s "attrs"), VDict [((s "localId"), VStr (s "c803020d-c496-4d39-baba-e42165565761"))]); ((s "content"), VList [VDict [((s "type"), VStr (s "paragraph")); ((s "attrs"), VDict [((s "localId"), VStr (s "6faf051b-c799-4d3a-8ac3-3283ef873585"))]); ((s "content"), VList [VDict [((s "text"), VStr (s "item 1")); ((s "type"), VStr (s "text"))]])]])]; VDict [((s "type"), VStr (s "listItem")); ((s "attrs"), VDict [((s "localId"), VStr (s "9f563561-0a2f-44e9-9eb4-1ef6e3778890"))]); ((s "content"), VList [VDict [((s "type"), VStr (s "paragraph")); ((s "attrs"), VDict [((s "localId"), VStr (s "12013c82-8faf-46b4-83a1-fa8da63ea783"))]); ((s "content"), VList [VDict [((s "text"), VStr (s "item 2")); ((s "type"), VStr (s "text"))]])]])]; VDict [((s "type"), VStr (s "listItem")); ((s "attrs"), VDict [((s "localId"), VStr (s "4925683a-5cf9-4244-a091-2a222c971927"))]); ((s "content"), VList [VDict [((s "type"), VStr (s "paragraph")); ((s "attrs"), VDict [((s "localId"), VStr (s "b8a673a5-2355-4521-918c-7ccecb82f31c"))]); ((s "content"), VList [VDict [((s "text"), VStr (s "item 3")); ((s "type"), VStr (s "text"))]])]])]])]; VDict [((s "type"), VStr (s "paragraph")); ((s "attrs"), VDict [((s "localId"), VStr (s "13a9b66b-74d0-4caa-9cbc-49bcfbd0c6ef"))])]; VDict [((s "type"), VStr (s "bulletList")); ((s "attrs"), VDict [((s "localId"), VStr (s "50f31c33-16f3-4da0-8bd5-c9ae90b3e11d"))]); ((s "content"), VList [VDict [((s "type"), VStr (s "listItem")); ((s "attrs"), VDict [((s "localId"), VStr (s "daff448a-5601-4073-b048-9b204fe97ff0"))]); ((s "content"), VList [VDict [((s "type"), VStr (s "paragraph")); ((s "attrs"), VDict [((s "localId"), VStr (s "117326ff-7ef7-4932-9202-68181791d632"))]); ((s "content"), VList [VDict [((s "text"), VStr (s "bullet list 2 item 1 (there is an empty line above this between this and the previous bullet list)")); ((s "type"), VStr (s "text"))]])]])]; VDict [((s "type"), VStr (s "listItem")); ((s "attrs"), VDict [((s "localId"), VStr (s "fbfe54f4-d2b6-40e9-a015-9bbea0ab75f3"))]); ((s "content"), VList [VDict [((s "type"), VStr (s "paragraph")); ((s "attrs"), VDict [((s "localId"), VStr (s "5d0be116-389c-4d8a-af44-fa3b463be9b4"))]); ((s "content"), VList [VDict [((s "text"), VStr (s "bullet list 2 item 2")); ((s "type"), VStr (s "text"))]])]])]; VDict [((s "type"), VStr (s "listItem")); ((s "attrs"), VDict [((s "localId"), VStr (s "d9cd48eb-65d0-45b4-9625-dde1eaffe204"))]); ((s "content"), VList [VDict [((s "type"), VStr (s "paragraph")); ((s "attrs"), VDict [((s "localId"), VStr (s "c8fee2d6-7348-490e-b059-9a8bba63bd61"))]); ((s "content"), VList [VDict [((s "text"), VStr (s "bullet list 2 item 3")); ((s "type"), VStr (s "text"))]])]])]])]; VDict [((s "type"), VStr (s "heading")); ((s "attrs"), VDict [((s "level"), VInt (2)); ((s "localId"), VStr (s "9f88ef71-bf85-4e2b-9350-7de6bc3b13d9"))]); ((s "content"), VList [VDict [((s "text"), VStr (s "Bullet List with Format")); ((s "type"), VStr (s "text"))]])]; VDict [((s "type"), VStr (s "paragraph")); ((s "attrs"), VDict [((s "localId"), VStr (s "b83d26d6-d437-481a-b7ed-b902f459576d"))]); ((s "content"), VList [VDict [((s "text"), VStr (s "bullet list 1 944782")); ((s "type"), VStr (s "text"))]])]; VDict [((s "type"), VStr (s "bulletList")); ((s "attrs"), VDict [((s "localId"), VStr (s "19eee56f-6a7c-4c26-8476-c12e08669b62"))]); ((s "content"), VList [VDict [((s "type"), VStr (s "listItem")); ((s "attrs"), VDict [((s "localId"), VStr (s "27ffe7df-0202-4b32-93d5-d497eb3a5f80"))]); ((s "content"), VList [VDict [((s "type"), VStr (s "paragraph")); ((s "attrs"), VDict [((s "localId"), VStr (s "1e8fcbac-4459-4c97-be6c-7c6ea8bab656"))]); ((s "content"), VList [VDict [((s "text"), VStr (s "this is ")); ((s "type"), VStr (s "text"))]; VDict [((s "text"), VStr (s "Alice")); ((s "type"), VStr (s "text")); ((s "marks"), VList [VDict [((s "type"), VStr (s "strong"))]])]; VDict [((s "text"), VStr (s ", ")); ((s "type"), VStr (s "text"))]; VDict [((s "text"), VStr (s "Bob")); ((s "type"), VStr (s "text")); ((s "marks"), VList [VDict [((s "type"), VStr (s "em"))]])]; VDict [((s "text"), VStr (s ", ")); ((s "type"), VStr (s "text"))]; VDict [((s "text"), VStr (s "Cathy")); ((s "type"), VStr (s "text")); ((s "marks"), VList [VDict [((s "type"), VStr (s "underline"))]])]; VDict [((s "text"), VStr (s ", ")); ((s "type"), VStr (s "text"))]; VDict [((s "text"), VStr (s "David")); ((s "type"), VStr (s "text")); ((s "marks"), VList [VDict [((s "type"), VStr (s "strike"))]])]; VDict [((s "text"), VStr (s ", ")); ((s "type"), VStr (s "text"))]; VDict [((s "text"), VStr (s "Edward")); ((s "type"), VStr (s "text")); ((s "marks"), VList [VDict [((s "type"), VStr (s "code"))]])]; VDict [((s "text"), VStr (s ", ")); ((s "type"), VStr (s "text"))]; VDict [((s "text"), VStr (s "Frank")); ((s "type"), VStr (s "text")); ((s "marks"), VList [VDict [((s "type"), VStr (s "subsup")); ((s "attrs"), VDict [((s "type"), VStr (s "sub"))])]])]; VDict [((s "text"), VStr (s ", ")); ((s "type"), VStr (s "text"))]; VDict [((s "text"), VStr (s "George")); ((s "type"), VStr (s "text")); ((s "marks"), VList [VDict [((s "type"), VStr (s "subsup")); ((s "attrs"), VDict [((s "type"), VStr (s "sup"))])]])]; VDict [((s "text"), VStr (s ".")); ((s "type"), VStr (s "text"))]])]])]; VDict [((s "type"), VStr (s "listItem")); ((s "attrs"), VDict [((s "localId"), VStr (s "7b446c26-c3f7-41a0-a370-e9bacf07382a"))]); ((s "content"), VList [VDict [((s "type"), VStr (s "paragraph")); ((s "attrs"), VDict [((s "localId"), VStr (s "be6b5ba8-e9bc-4fe5-85d5-4d1004b4b3ac"))]); ((s "content"), VList [VDict [((s "text"), VStr (s "This line has titled hyperlink ")); ((s "type"), VStr (s "text"))]; VDict [((s "text"), VStr (s "Atlas Doc Format")); ((s "type"), VStr (s "text")); ((s "marks"), VList [VDict [((s "type"), VStr (s "link")); ((s "attrs"), VDict [((s "href"), VStr (s "https://developer.atlassian.com/cloud/jira/platform/apis/document/structure/"))])]])]; VDict [((s "text"), VStr (s ".")); ((s "type"), VStr (s "text"))]])]])]; VDict [((s "type"), VStr (s "listItem")); ((s "attrs"), VDict [((s "localId"), VStr (s "5be9d22c-b3e9-461a-a0b3-e6180a484b8c"))]); ((s "content"), VList [VDict [((s "type"), VStr (s "paragraph")); ((s "attrs"), VDict [((s "localId"), VStr (s "c4ec3146-ac2c-4c43-9c53-acd0055f6691"))]); ((s "content"), VList [VDict [((s "text"), VStr (s "This line has url hyperlink ")); ((s "type"), VStr (s "text"))]; VDict [((s "type"), VStr (s "inlineCard")); ((s "attrs"), VDict [((s "url"), VStr (s "https://developer.atlassian.com/cloud/jira/platform/apis/document/structure/"))])]; VDict [((s "text"), VStr (s "   ")); ((s "type"), VStr (s "text"))]])]])]; VDict [((s "type"), VStr (s "listItem")); ((s "attrs"), VDict [((s "localId"), VStr (s "a301793b-177f-4a86-a4dd-3ce811676802"))]); ((s "content"), VList [VDict [((s "type"), VStr (s "paragraph")); ((s "attrs"), VDict [((s "localId"), VStr (s "87526f4d-76e8-4f16-a07a-9d75544cc70c"))]); ((s "content"), VList [VDict [((s "text"), VStr (s "This line has inline hyperlink ")); ((s "type"), VStr (s "text"))]; VDict [((s "type"), VStr (s "inlineCard")); ((s "attrs"), VDict [((s "localId"), VStr (s "8edb61a3-fe5d-4370-a22e-3adb55b768af")); ((s "url"), VStr (s "https://developer.atlassian.com/cloud/jira/platform/apis/document/structure/"))])]; VDict [((s "text"), VStr (s "  ")); ((s "type"), VStr (s "text"))]])]])]])]; VDict [((s "type"), VStr (s "heading")); ((s "attrs"), VDict [((s "level"), VInt (2)); ((s "localId"), VStr (s "b77da9c7-dbbb-4769-8199-85edeadf9236"))]); ((s "content"), VList [VDict [((s "text"), VStr (s "Nested Bullet List")); ((s "type"), VStr (s "text"))]])]; VDict [((s "type"), VStr (s "paragraph")); ((s "attrs"), VDict [((s "localId"), VStr (s "14da0f31-755d-40d9-8db9-8a2d778a3d4a"))]); ((s "content"), VList [VDict [((s "text"), VStr (s "bullet list 1 c5e045")); ((s "type"), VStr (s "text"))]])]; VDict [((s "type"), VStr (s "bulletList")); ((s "attrs"), VDict [((s "localId"), VStr (s "2dd44226-007b-44e8-bfb8-50379a24289d"))]); ((s "content"), VList [VDict [((s "type"), VStr (s "listItem")); ((s "attrs"), VDict [((s "localId"), VStr (s "56f5f099-d048-49de-b3f0-9a7f796acd1f"))]); ((s "content"), VList [VDict [((s "type"), VStr (s "paragraph")); ((s "attrs"), VDict [((s "localId"), VStr (s "58231f15-9009-4613-b9bf-20e86b4280b3"))]); ((s "content"), VList [VDict [((s "text"), VStr (s "item")); ((s "type"), VStr (s "text")); ((s "marks"), VList [VDict [((s "type"), VStr (s "strong"))]])]; VDict [((s "text"), VStr (s " 1")); ((s "type"), VStr (s "text"))]])]])]; VDict [((s "type"), VStr (s "listItem")); ((s "attrs"), VDict [((s "localId"), VStr (s "318bc6ef-ec17-4f85-95d3-360d06dc0d9f"))]); ((s "content"), VList [VDict [((s "type"), VStr (s "paragraph")); ((s "attrs"), VDict [((s "localId"), VStr (s "6a311762-3833-437e-b315-47dfcb74414f"))]); ((s "content"), VList [VDict [((s "text"), VStr (s "item")); ((s "type"), VStr (s "text")); ((s "marks"), VList [VDict [((s "type"), VStr (s "underline"))]])]; VDict [((s "text"), VStr (s " 2")); ((s "type"), VStr (s "text"))]])]])]; VDict [((s "type"), VStr (s "listItem")); ((s "attrs"), VDict [((s "localId"), VStr (s "79c91848-f0e7-4221-9d1d-bded3a85d6a1"))]); ((s "content"), VList [VDict [((s "type"), VStr (s "paragraph")); ((s "attrs"), VDict [((s "localId"), VStr (s "4112aeba-dda9-447b-80af-c6fea0244953"))]); ((s "content"), VList [VDict [((s "text"), VStr (s "item")); ((s "type"), VStr (s "text")); ((s "marks"), VList [VDict [((s "type"), VStr (s "code"))]])]; VDict [((s "text"), VStr (s " 3")); ((s "type"), VStr (s "text"))]])]; VDict [((s "type"), VStr (s "bulletList")); ((s "attrs"), VDict [((s "localId"), VStr (s "20ed3949-c7d7-44b4-9ae4-e1e6d4dcafcc"))]); ((s "content"), VList [VDict [((s "type"), VStr (s "listItem")); ((s "attrs"), VDict [((s "localId"), VStr (s "d96924d7-025f-4bf7-af13-63b784b5064a"))]); ((s "content"), VList [VDict [((s "type"), VStr (s "paragraph")); ((s "attrs"), VDict [((s "localId"), VStr (s "898e1cd8-2313-4287-b586-12299f7ce0c9"))]); ((s "content"), VList [VDict [((s "text"), VStr (s "item")); ((s "type"), VStr (s "text")); ((s "marks"), VList [VDict [((s "type"), VStr (s "link")); ((s "attrs"), VDict [((s "href"), VStr (s "https://developer.atlassian.com/cloud/jira/platform/apis/document/structure/"))])]])]; VDict [((s "text"), VStr (s " 3.1")); ((s "type"), VStr (s "text"))]])]; VDict [((s "type"), VStr (s "bulletList")); ((s "attrs"), VDict [((s "localId"), VStr (s "9ffb7cd7-5fcf-49bd-8231-a25b79ca9b2a"))]); ((s "content"), VList [VDict [((s "type"), VStr (s "listItem")); ((s "attrs"), VDict [((s "localId"), VStr (s "6315dc7e-b22f-4720-9e05-70b4234c3c3a"))]); ((s "content"), VList [VDict [((s "type"), VStr (s "paragraph")); ((s "attrs"), VDict [((s "localId"), VStr (s "275686c0-5d4c-4865-924a-ab59dd112e31"))]); ((s "content"), VList [VDict [((s "text"), VStr (s "item 3.1.1")); ((s "type"), VStr (s "text"))]])]])]; VDict [((s "type"), VStr (s "listItem")); ((s "attrs"), VDict [((s "localId"), VStr (s "ef116b5c-9c3c-4d4e-89f8-a33e117f9754"))]); ((s "content"), VList [VDict [((s "type"), VStr (s "paragraph")); ((s "attrs"), VDict [((s "localId"), VStr (s "19a287a1-94fb-4d1c-8ddc-23b5a2a8ad1f"))]); ((s "content"), VList [VDict [((s "text"), VStr (s "item 3.1.2")); ((s "type"), VStr (s "text"))]])]])]])]])]; VDict [((s "type"), VStr (s "listItem")); ((s "attrs"), VDict [((s "localId"), VStr (s "abce733e-8513-4d45-b2b8-00b0e6dba2e4"))]); ((s "content"), VList [VDict [((s "type"), VStr (s "paragraph")); ((s "attrs"), VDict [((s "localId"), VStr (s "dfeeb19b-ea39-4f0b-be57-5eca2b2d61c8"))]); ((s "content"), VList [VDict [((s "text"), VStr (s "item")); ((s "type"), VStr (s "text")); ((s "marks"), VList [VDict [((s "type"), VStr (s "textColor")); ((s "attrs"), VDict [((s "color"), VStr (s "#ff5630"))])]])]; VDict [((s "text"), VStr (s " 3.2")); ((s "type"), VStr (s "text"))]])]; VDict [((s "type"), VStr (s "bulletList")); ((s "attrs"), VDict [((s "localId"), VStr (s "cca8467e-bc7a-4847-b10f-b1b60e1e895d"))]); ((s "content"), VList [VDict [((s "type"), VStr (s "listItem")); ((s "attrs"), VDict [((s "localId"), VStr (s "ee80c677-5797-43f2-b3bf-50206395d8c3"))]); ((s "content"), VList [VDict [((s "type"), VStr (s "paragraph")); ((s "attrs"), VDict [((s "localId"), VStr (s "91986642-de46-4406-a2d1-fde270ae84c6"))]); ((s "content"), VList [VDict [((s "text"), VStr (s "item 3.2.1")); ((s "type"), VStr (s "text"))]])]])]; VDict [((s "type"), VStr (s "listItem")); ((s "attrs"), VDict [((s "localId"), VStr (s "2cd7669f-e789-48d3-8e6b-4c6bea161ac7"))]); ((s "content"), VList [VDict [((s "type"), VStr (s "paragraph")); ((s "attrs"), VDict [((s "localId"), VStr (s "24a2e21d-dfc3-46c0-9b9e-9f00456ec31e"))]); ((s "content"), VList [VDict [((s "text"), VStr (s "item 3.2.2")); ((s "type"), VStr (s "text"))]])]])]])]])]])]])]])]; VDict [((s "type"), VStr (s "heading")); ((s "attrs"), VDict [((s "level"), VInt (1)); ((s "localId"), VStr (s "17aa8635-ce4a-448f-b351-7ffa2e64f5a5"))]); ((s "content"), VList [VDict [((s "text"), VStr (s "Ordered List 639d5a")); ((s "type"), VStr (s "text"))]])]; VDict [((s "type"), VStr (s "heading")); ((s "attrs"), VDict [((s "level"), VInt (2)); ((s "localId"), VStr (s "c49f0ed3-cc45-4cbc-a023-05cff70da244"))]); ((s "content"), VList [VDict [((s "text"), VStr (s "Simple Ordered List")); ((s "type"), VStr (s "text"))]])]; VDict [((s "type"), VStr (s "paragraph")); ((s "attrs"), VDict [((s "localId"), VStr (s "c089dc4a-4651-4f27-bb01-8299a5e192db"))]); ((s "content"), VList [VDict [((s "text"), VStr (s "Ordered list 1 e7bd58")); ((s "type"), VStr (s "text"))]])]; VDict [((s "type"), VStr (s "orderedList")); ((s "attrs"), VDict [((s "localId"), VStr (s "c319b22e-1086-46f5-b781-68006a66436b")); ((s "order"), VInt (1))]); ((s "content"), VList [VDict [((s "type"), VStr (s "listItem")); ((s "attrs"), VDict [((s "localId"), VStr (s "785fd770-0481-431a-aa04-83d9fa72f196"))]); ((s "content"), VList [VDict [((s "type"), VStr (s "paragraph")); ((s "attrs"), VDict [((s "localId"), VStr (s "53ab84bd-6a3b-413d-88a3-0b044053e66f"))]); ((s "content"), VList [VDict [((s "text"), VStr (s "Alice")); ((s "type"), VStr (s "text"))]])]])]; VDict [((s "type"), VStr (s "listItem")); ((s "attrs"), VDict [((s "localId"), VStr (s "34a91e0c-9f4a-4907-b37c-55f2b508fe02"))]); ((s "content"), VList [VDict [((s "type"), VStr (s "paragraph")); ((s "attrs"), VDict [((s "localId"), VStr (s "2602d39d-0909-4e2e-a54f-733ff569d83e"))]); ((s "content"), VList [VDict [((s "text"), VStr (s "Bob")); ((s "type"), VStr (s "text"))]])]])]; VDict [((s "type"), VStr (s "listItem")); ((s "attrs"), VDict [((s "localId"), VStr (s "4b0cf906-a5f3-4283-9fad-2290c25b8588"))]); ((s "content"), VList [VDict [((s "type"), VStr (s "paragraph")); ((s "attrs"), VDict [((s "localId"), VStr (s "d39e5a96-6872-47d3-b16e-8fa9d251edf6"))]); ((s "content"), VList [VDict [((s "text"), VStr (s "Cathy")); ((s "type"), VStr (s "text"))]])]])]])]; VDict [((s "type"), VStr (s "paragraph")); ((s "attrs"), VDict [((s "localId"), VStr (s "da4ae01a-3e0d-4928-b74a-e7ca01bd11ac"))])]; VDict [((s "type"), VStr (s "orderedList")); ((s "attrs"), VDict [((s "localId"), VStr (s "bdadba7b-f3c4-4f61-918f-a4cb4c55b466")); ((s "order"), VInt (1))]); ((s "content"), VList [VDict [((s "type"), VStr (s "listItem")); ((s "attrs"), VDict [((s "localId"), VStr (s "3d4d5e40-c64c-4c47-b673-66c00d1e2d30"))]); ((s "content"), VList [VDict [((s "type"), VStr (s "paragraph")); ((s "attrs"), VDict [((s "localId"), VStr (s "f57f52a2-3b10-441e-9324-b59f17327a4f"))]); ((s "content"), VList [VDict [((s "text"), VStr (s "Ordered list 2 item 1 (there is an empty line above this between this and the previous bullet list)")); ((s "type"), VStr (s "text"))]])]])]; VDict [((s "type"), VStr (s "listItem")); ((s "attrs"), VDict [((s "localId"), VStr (s "bbba5842-ae3e-4e10-8b7f-0787530ec86d"))]); ((s "content"), VList [VDict [((s "type"), VStr (s "paragraph")); ((s "attrs"), VDict [((s "localId"), VStr (s "a515929e-9d12-451b-9e5a-e07e3ecf5e11"))]); ((s "content"), VList [VDict [((s "text"), VStr (s "Ordered list 2 item 2")); ((s "type"), VStr (s "text"))]])]])]; VDict [((s "type"), VStr (s "listItem")); ((s "attrs"), VDict [((s "localId"), VStr (s "ae8c77e2-167d-4b93-a83c-8552b9eccc64"))]); ((s "content"), VList [VDict [((s "type"), VStr (s "paragraph")); ((s "attrs"), VDict [((s "localId"), VStr (s "f143e503-7f85-4541-9c4b-6874b0a12c81"))]); ((s "content"), VList [VDict [((s "text"), VStr (s "Ordered list 2 item 3")); ((s "type"), VStr (s "text"))]])]])]])]; VDict [((s "type"), VStr (s "heading")); ((s "attrs"), VDict [((s "level"), VInt (2)); ((s "localId"), VStr (s "c47c33b3-29bf-44d1-8e23-32e3c8ef787f"))]); ((s "content"), VList [VDict [((s "text"), VStr (s "Ordered List With Format")); ((s "type"), VStr (s "text"))]])]; VDict [((s "type"), VStr (s "paragraph")); ((s "attrs"), VDict [((s "localId"), VStr (s "9e371518-a1af-48ff-aee4-98167cc045e2"))]); ((s "content"), VList [VDict [((s "text"), VStr (s "ordered list 1 fd02cb")); ((s "type"), VStr (s "text"))]])]; VDict [((s "type"), VStr (s "orderedList")); ((s "attrs"), VDict [((s "localId"), VStr (s "931a63e4-b15f-4d51-9e51-059e31a1990f")); ((s "order"), VInt (11))]); ((s "content"), VList [VDict [((s "type"), VStr (s "listItem")); ((s "attrs"), VDict [((s "localId"), VStr (s "12ca130f-889b-4f66-87ce-194f08c7fc44"))]); ((s "content"), VList [VDict [((s "type"), VStr (s "paragraph")); ((s "attrs"), VDict [((s "localId"), VStr (s "2464f653-bf2b-4a7d-8e63-9ede8893c8ba"))]); ((s "content"), VList [VDict [((s "text"), VStr (s "this is ")); ((s "type"), VStr (s "text"))]; VDict [((s "text"), VStr (s "Alice")); ((s "type"), VStr (s "text")); ((s "marks"), VList [VDict [((s "type"), VStr (s "strong"))]])]; VDict [((s "text"), VStr (s ", ")); ((s "type"), VStr (s "text"))]; VDict [((s "text"), VStr (s "Bob")); ((s "type"), VStr (s "text")); ((s "marks"), VList [VDict [((s "type"), VStr (s "em"))]])]; VDict [((s "text"), VStr (s ", ")); ((s "type"), VStr (s "text"))]; VDict [((s "text"), VStr (s "Cathy")); ((s "type"), VStr (s "text")); ((s "marks"), VList [VDict [((s "type"), VStr (s "underline"))]])]; VDict [((s "text"), VStr (s ", ")); ((s "type"), VStr (s "text"))]; VDict [((s "text"), VStr (s "David")); ((s "type"), VStr (s "text")); ((s "marks"), VList [VDict [((s "type"), VStr (s "strike"))]])]; VDict [((s "text"), VStr (s ", ")); ((s "type"), VStr (s "text"))]; VDict [((s "text"), VStr (s "Edward")); ((s "type"), VStr (s "text")); ((s "marks"), VList [VDict [((s "type"), VStr (s "code"))]])]; VDict [((s "text"), VStr (s ", ")); ((s "type"), VStr (s "text"))]; VDict [((s "text"), VStr (s "Frank")); ((s "type"), VStr (s "text")); ((s "marks"), VList [VDict [((s "type"), VStr (s "subsup")); ((s "attrs"), VDict [((s "type"), VStr (s "sub"))])]])]; VDict [((s "text"), VStr (s ", ")); ((s "type"), VStr (s "text"))]; VDict [((s "text"), VStr (s "George")); ((s "type"), VStr (s "text")); ((s "marks"), VList [VDict [((s "type"), VStr (s "subsup")); ((s "attrs"), VDict [((s "type"), VStr (s "sup"))])]])]; VDict [((s "text"), VStr (s ".")); ((s "type"), VStr (s "text"))]])]])]; VDict [((s "type"), VStr (s "listItem")); ((s "attrs"), VDict [((s "localId"), VStr (s "e702cf05-1b34-4a9c-b4d0-ff8c995bba67"))]); ((s "content"), VList [VDict [((s "type"), VStr (s "paragraph")); ((s "attrs"), VDict [((s "localId"), VStr (s "3ec2f8e0-91e8-4dbb-b210-fadd56665265"))]); ((s "content"), VList [VDict [((s "text"), VStr (s "This line has titled hyperlink ")); ((s "type"), VStr (s "text"))]; VDict [((s "text"), VStr (s "Atlas Doc Format")); ((s "type"), VStr (s "text")); ((s "marks"), VList [VDict [((s "type"), VStr (s "link")); ((s "attrs"), VDict [((s "href"), VStr (s "https://developer.atlassian.com/cloud/jira/platform/apis/document/structure/"))])]])]; VDict [((s "text"), VStr (s ".")); ((s "type"), VStr (s "text"))]])]])]; VDict [((s "type"), VStr (s "listItem")); ((s "attrs"), VDict [((s "localId"), VStr (s "bc02a481-4b0e-4df2-9b64-d1cd401065fb"))]); ((s "content"), VList [VDict [((s "type"), VStr (s "paragraph")); ((s "attrs"), VDict [((s "localId"), VStr (s "2fdc8b02-3e47-4d8d-8107-ab024eabfeb5"))]); ((s "content"), VList [VDict [((s "text"), VStr (s "This line has url hyperlink ")); ((s "type"), VStr (s "text"))]; VDict [((s "type"), VStr (s "inlineCard")); ((s "attrs"), VDict [((s "localId"), VStr (s "06e828ff-29bd-4c23-839a-ab7889695911")); ((s "url"), VStr (s "https://developer.atlassian.com/cloud/jira/platform/apis/document/structure/"))])]; VDict [((s "text"), VStr (s "    ")); ((s "type"), VStr (s "text"))]])]])]; VDict [((s "type"), VStr (s "listItem")); ((s "attrs"), VDict [((s "localId"), VStr (s "527c749a-99a3-481e-b76f-6bd8e4a0ef7d"))]); ((s "content"), VList [VDict [((s "type"), VStr (s "paragraph")); ((s "attrs"), VDict [((s "localId"), VStr (s "4b56ea8e-9ef2-4b63-b076-a5b1278d759b"))]); ((s "content"), VList [VDict [((s "text"), VStr (s "This line has inline hyperlink ")); ((s "type"), VStr (s "text"))]; VDict [((s "type"), VStr (s "inlineCard")); ((s "attrs"), VDict [((s "localId"), VStr (s "2a23e1e0-d0fc-4ee4-aae3-085db63a5c9c")); ((s "url"), VStr (s "https://developer.atlassian.com/cloud/jira/platform/apis/document/structure/"))])]])]])]])]; VDict [((s "type"), VStr (s "heading")); ((s "attrs"), VDict [((s "level"), VInt (2)); ((s "localId"), VStr (s "729a963e-5529-4b59-b4b6-429e85007d48"))]); ((s "content"), VList [VDict [((s "text"), VStr (s "Nested Ordered List")); ((s "type"), VStr (s "text"))]])]; VDict [((s "type"), VStr (s "paragraph")); ((s "attrs"), VDict [((s "localId"), VStr (s "14b0ce1d-dfa4-4538-b172-dbe63f349c29"))]); ((s "content"), VList [VDict [((s "text"), VStr (s "ordered list 1 eb58ef")); ((s "type"), VStr (s "text"))]])]; VDict [((s "type"), VStr (s "orderedList")); ((s "attrs"), VDict [((s "localId"), VStr (s "e8e8d879-fda6-4464-82ba-cb5f916f8a12")); ((s "order"), VInt (1))]); ((s "content"), VList [VDict [((s "type"), VStr (s "listItem")); ((s "attrs"), VDict [((s "localId"), VStr (s "b8915919-209f-43af-80cb-3fa0859e3046"))]); ((s "content"), VList [VDict [((s "type"), VStr (s "paragraph")); ((s "attrs"), VDict [((s "localId"), VStr (s "c729c658-7eb6-4c6d-944f-50f59fa2e3b2"))]); ((s "content"), VList [VDict [((s "text"), VStr (s "Alice")); ((s "type"), VStr (s "text"))]])]])]; VDict [((s "type"), VStr (s "listItem")); ((s "attrs"), VDict [((s "localId"), VStr (s "f4aa9c22-1217-44cb-9868-3eaf706db703"))]); ((s "content"), VList [VDict [((s "type"), VStr (s "paragraph")); ((s "attrs"), VDict [((s "localId"), VStr (s "12940eef-dd40-498c-9002-fc101b396866"))]); ((s "content"), VList [VDict [((s "text"), VStr (s "Bob")); ((s "type"), VStr (s "text"))]])]])]; VDict [((s "type"), VStr (s "listItem")); ((s "attrs"), VDict [((s "localId"), VStr (s "b23c9714-19e7-4604-a3db-bf2a782d086c"))]); ((s "content"), VList [VDict [((s "type"), VStr (s "paragraph")); ((s "attrs"), VDict [((s "localId"), VStr (s "3478836f-8e94-4820-9f10-027af275d817"))]); ((s "content"), VList [VDict [((s "text"), VStr (s "Cathy")); ((s "type"), VStr (s "text"))]])]; VDict [((s "type"), VStr (s "orderedList")); ((s "attrs"), VDict [((s "localId"), VStr (s "42fdddce-4e6e-49e2-9571-22e1198882c6")); ((s "order"), VInt (1))]); ((s "content"), VList [VDict [((s "type"), VStr (s "listItem")); ((s "attrs"), VDict [((s "localId"), VStr (s "fc40c0ca-df3d-40ca-bd64-cbe69e45ef35"))]); ((s "content"), VList [VDict [((s "type"), VStr (s "paragraph")); ((s "attrs"), VDict [((s "localId"), VStr (s "162b5414-8f3f-4c18-9d42-878480d9dc02"))]); ((s "content"), VList [VDict [((s "text"), VStr (s "Cathy 1")); ((s "type"), VStr (s "text"))]])]; VDict [((s "type"), VStr (s "orderedList")); ((s "attrs"), VDict [((s "localId"), VStr (s "dfe87b0e-8de1-4d9a-820e-3027597ed43b")); ((s "order"), VInt (1))]); ((s "content"), VList [VDict [((s "type"), VStr (s "listItem")); ((s "attrs"), VDict [((s "localId"), VStr (s "d9710e84-6e9b-4e5c-a0bb-176491544f62"))]); ((s "content"), VList [VDict [((s "type"), VStr (s "paragraph")); ((s "attrs"), VDict [((s "localId"), VStr (s "19bd7527-c5f2-47ea-a46d-84470b0575d4"))]); ((s "content"), VList [VDict [((s "text"), VStr (s "Cathy 1.1")); ((s "type"), VStr (s "text"))]])]])]; VDict [((s "type"), VStr (s "listItem")); ((s "attrs"), VDict [((s "localId"), VStr (s "140e0de0-3eed-41d1-b992-bd49bf3ff9a8"))]); ((s "content"), VList [VDict [((s "type"), VStr (s "paragraph")); ((s "attrs"), VDict [((s "localId"), VStr (s "92da923f-b290-4e08-9146-3049a35df43f"))]); ((s "content"), VList [VDict [((s "text"), VStr (s "Cathy 1.2")); ((s "type"), VStr (s "text"))]])]])]])]])]; VDict [((s "type"), VStr (s "listItem")); ((s "attrs"), VDict [((s "localId"), VStr (s "32eeba50-f284-4789-b160-3eaa3ba99189"))]); ((s "content"), VList [VDict [((s "type"), VStr (s "paragraph")); ((s "attrs"), VDict [((s "localId"), VStr (s "36bbe563-08ca-4fb0-b133-5fe5523f5b7e"))]); ((s "content"), VList [VDict [((s "text"), VStr (s "Cathy 2")); ((s "type"), VStr (s "text"))]])]; VDict [((s "type"), VStr (s "orderedList")); ((s "attrs"), VDict [((s "localId"), VStr (s "f4723a29-367e-42fd-b3b5-7e7de97fad02")); ((s "order"), VInt (1))]); ((s "content"), VList [VDict [((s "type"), VStr (s "listItem")); ((s "attrs"), VDict [((s "localId"), VStr (s "af5a3d95-da52-4192-9406-c2c4bdda1b00"))]); ((s "content"), VList [VDict [((s "type"), VStr (s "paragraph")); ((s "attrs"), VDict [((s "localId"), VStr (s "ec0f2a72-385c-4d29-befb-58705fcfc0cd"))]); ((s "content"), VList [VDict [((s "text"), VStr (s "Cathy 2.1")); ((s "type"), VStr (s "text"))]])]])]; VDict [((s "type"), VStr (s "listItem")); ((s "attrs"), VDict [((s "localId"), VStr (s "2ffce785-de1e-45ef-aa14-d5af470ab936"))]); ((s "content"), VList [VDict [((s "type"), VStr (s "paragraph")); ((s "attrs"), VDict [((s "localId"), VStr (s "70988b5a-d3c3-40f7-917e-3b6d857124ca"))]); ((s "content"), VList [VDict [((s "text"), VStr (s "Cathy 2.2")); ((s "type"), VStr (s "text"))]])]])]])]])]])]])]])]; VDict [((s "type"), VStr (s "heading")); ((s "attrs"), VDict [((s "level"), VInt (1)); ((s "localId"), VStr (s "d84a6442-e97b-4e1c-9111-ca6802222478"))]); ((s "content"), VList [VDict [((s "text"), VStr (s "Task List 4141f8")); ((s "type"), VStr (s "text"))]])]; VDict [((s "type"), VStr (s "heading")); ((s "attrs"), VDict [((s "level"), VInt (2)); ((s "localId"), VStr (s "357ff3c1-a318-4c9b-9ba9-f2ad753ca18d"))]); ((s "content"), VList [VDict [((s "text"), VStr (s "Nested Task List")); ((s "type"), VStr (s "text"))]])]; VDict [((s "type"), VStr (s "paragraph")); ((s "attrs"), VDict [((s "localId"), VStr (s "f9a4fa44-89c6-42f3-a886-56a4e025e0f5"))]); ((s "content"), VList [VDict [((s "text"), VStr (s "task list 1 e5461d")); ((s "type"), VStr (s "text"))]])]; VDict [((s "type"), VStr (s "taskList")); ((s "attrs"), VDict [((s "localId"), VStr (s "42a45bae-f026-42e8-95c4-5da44690ba5c"))]); ((s "content"), VList [VDict [((s "type"), VStr (s "taskItem")); ((s "attrs"), VDict [((s "state"), VStr (s "DONE")); ((s "localId"), VStr (s "62e10615-a4c7-4ee1-aa46-ed6b91759ffc"))]); ((s "content"), VList [VDict [((s "text"), VStr (s "Do this")); ((s "type"), VStr (s "text"))]])]; VDict [((s "type"), VStr (s "taskItem")); ((s "attrs"), VDict [((s "state"), VStr (s "TODO")); ((s "localId"), VStr (s "fbb1c246-bf9f-4922-b73d-46dc3ff7dedf"))]); ((s "content"), VList [VDict [((s "text"), VStr (s "And do ")); ((s "type"), VStr (s "text"))]; VDict [((s "text"), VStr (s "this")); ((s "type"), VStr (s "text")); ((s "marks"), VList [VDict [((s "type"), VStr (s "strong"))]])]])]; VDict [((s "type"), VStr (s "taskList")); ((s "attrs"), VDict [((s "localId"), VStr (s "51da41c5-7427-4d8a-8987-cd7c873ee0ed"))]); ((s "content"), VList [VDict [((s "type"), VStr (s "taskItem")); ((s "attrs"), VDict [((s "state"), VStr (s "TODO")); ((s "localId"), VStr (s "45b36318-9a94-41a4-b1b5-3e263aae4c66"))]); ((s "content"), VList [VDict [((s "text"), VStr (s "sub ")); ((s "type"), VStr (s "text"))]; VDict [((s "text"), VStr (s "task")); ((s "type"), VStr (s "text")); ((s "marks"), VList [VDict [((s "type"), VStr (s "code"))]])]; VDict [((s "text"), VStr (s " 1")); ((s "type"), VStr (s "text"))]])]; VDict [((s "type"), VStr (s "taskList")); ((s "attrs"), VDict [((s "localId"), VStr (s "121b1029-07ee-4bd6-b3cc-6c71e93708e9"))]); ((s "content"), VList [VDict [((s "type"), VStr (s "taskItem")); ((s "attrs"), VDict [((s "state"), VStr (s "DONE")); ((s "localId"), VStr (s "b7cf7889-23e2-4d90-aa18-ee5ef9d1de22"))]); ((s "content"), VList [VDict [((s "text"), VStr (s "sub ")); ((s "type"), VStr (s "text"))]; VDict [((s "text"), VStr (s "task")); ((s "type"), VStr (s "text")); ((s "marks"), VList [VDict [((s "type"), VStr (s "underline"))]])]; VDict [((s "text"), VStr (s " 1.1")); ((s "type"), VStr (s "text"))]])]; VDict [((s "type"), VStr (s "taskItem")); ((s "attrs"), VDict [((s "state"), VStr (s "TODO")); ((s "localId"), VStr (s "8124b0b0-c732-4640-891d-a5b46c4979a7"))]); ((s "content"), VList [VDict [((s "text"), VStr (s "sub ")); ((s "type"), VStr (s "text"))]; VDict [((s "text"), VStr (s "task")); ((s "type"), VStr (s "text")); ((s "marks"), VList [VDict [((s "type"), VStr (s "strike"))]])]; VDict [((s "text"), VStr (s " 1.2")); ((s "type"), VStr (s "text"))]])]])]; VDict [((s "type"), VStr (s "taskItem")); ((s "attrs"), VDict [((s "state"), VStr (s "TODO")); ((s "localId"), VStr (s "08b381be-ea26-4951-8a74-3d312f546949"))]); ((s "content"), VList [VDict [((s "text"), VStr (s "sub ")); ((s "type"), VStr (s "text"))]; VDict [((s "text"), VStr (s "task")); ((s "type"), VStr (s "text")); ((s "marks"), VList [VDict [((s "type"), VStr (s "strong"))]])]; VDict [((s "text"), VStr (s " 2")); ((s "type"), VStr (s "text"))]])]; VDict [((s "type"), VStr (s "taskList")); ((s "attrs"), VDict [((s "localId"), VStr (s "da5b4437-d088-4a87-a0ea-64417c35b607"))]); ((s "content"), VList [VDict [((s "type"), VStr (s "taskItem")); ((s "attrs"), VDict [((s "state"), VStr (s "TODO")); ((s "localId"), VStr (s "a5b7c31c-a3de-44b7-a31d-e5c48fa7313d"))]); ((s "content"), VList [VDict [((s "text"), VStr (s "sub ")); ((s "type"), VStr (s "text"))]; VDict [((s "text"), VStr (s "task")); ((s "type"), VStr (s "text")); ((s "marks"), VList [VDict [((s "type"), VStr (s "textColor")); ((s "attrs"), VDict [((s "color"), VStr (s "#ff5630"))])]])]; VDict [((s "text"), VStr (s " 2.1")); ((s "type"), VStr (s "text"))]])]; VDict [((s "type"), VStr (s "taskItem")); ((s "attrs"), VDict [((s "state"), VStr (s "DONE")); ((s "localId"), VStr (s "724e8679-edc2-436b-859d-f9246bac55c6"))]); ((s "content"), VList [VDict [((s "text"), VStr (s "sub ")); ((s "type"), VStr (s "text"))]; VDict [((s "text"), VStr (s "task")); ((s "type"), VStr (s "text")); ((s "marks"), VList [VDict [((s "type"), VStr (s "backgroundColor")); ((s "attrs"), VDict [((s "color"), VStr (s "#c6edfb"))])]])]; VDict [((s "text"), VStr (s " 2.2")); ((s "type"), VStr (s "text"))]])]])]])]])]; VDict [((s "type"), VStr (s "heading")); ((s "attrs"), VDict [((s "level"), VInt (1)); ((s "localId"), VStr (s "6e901f2a-f571-4ce0-a698-3ed0e153e20d"))]); ((s "content"), VList [VDict [((s "text"), VStr (s "Code Block 3d7d7e ")); ((s "type"), VStr (s "text"))]])]; VDict [((s "type"), VStr (s "paragraph")); ((s "attrs"), VDict [((s "localId"), VStr (s "d9074875-cfa1-4535-861b-6a3ec9e39cd5"))]); ((s "content"), VList [VDict [((s "text"), VStr (s "This is a code block")); ((s "type"), VStr (s "text"))]])]; VDict [((s "type"), VStr (s "codeBlock")); ((s "attrs"), VDict [((s "language"), VStr (s "none")); ((s "localId"), VStr (s "2937fa69-4d75-4c45-8c92-9469959864f5"))]); ((s "content"), VList [VDict [((s "text"), VStr (s "> Hello world")); ((s "type"), VStr (s "text"))]])]; VDict [((s "type"), VStr (s "paragraph")); ((s "attrs"), VDict [((s "localId"), VStr (s "09254482-99e5-49d5-8c95-bd8c6e2160aa"))]); ((s "content"), VList [VDict [((s "text"), VStr (s "This is a Python code block")); ((s "type"), VStr (s "text"))]])]; VDict [((s "type"), VStr (s "codeBlock")); ((s "attrs"), VDict [((s "language"), VStr (s "python")); ((s "localId"), VStr (s "085d94e1-bbc7-4510-b325-7e39117a1c3c"))]); ((s "content"), VList [VDict [((s "text"), VStr [100; 101; 102; 32; 97; 100; 100; 95; 116; 119; 111; 40; 97; 44; 32; 98; 41; 58; 10; 32; 32; 32; 32; 114; 101; 116; 117; 114; 110; 32; 97; 32; 43; 32; 98]%N); ((s "type"), VStr (s "text"))]])]; VDict [((s "type"), VStr (s "heading")); ((s "attrs"), VDict [((s "level"), VInt (1)); ((s "localId"), VStr (s "f4503e56-6477-49c2-b83c-a378393d7d49"))]); ((s "content"), VList [VDict [((s "text"), VStr (s "Image 75c648")); ((s "type"), VStr (s "text"))]])]; VDict [((s "type"), VStr (s "paragraph")); ((s "attrs"), VDict [((s "localId"), VStr (s "f5b822f8-89dc-4aa9-97dc-d9bba6553fbc"))]); ((s "content"), VList [VDict [((s "text"), VStr (s "This is an image")); ((s "type"), VStr (s "text"))]])]; VDict [((s "type"), VStr (s "mediaSingle")); ((s "attrs"), VDict [((s "layout"), VStr (s "center")); ((s "width"), VInt (250)); ((s "widthType"), VStr (s "pixel"))]); ((s "content"), VList [VDict [((s "type"), VStr (s "media")); ((s "attrs"), VDict [((s "width"), VInt (580)); ((s "type"), VStr (s "external")); ((s "localId"), VStr (s "6900d305-b02b-4ec7-aafa-425a7a00144d")); ((s "url"), VStr (s "https://www.python.org/static/img/python-logo.png")); ((s "height"), VInt (164))])]])]; VDict [((s "type"), VStr (s "paragraph")); ((s "attrs"), VDict [((s "localId"), VStr (s "ebee362f-71c1-4c7d-acc4-ce26eb850a55"))]); ((s "content"), VList [VDict [((s "text"), VStr (s "This is an image with alt text")); ((s "type"), VStr (s "text"))]])]; VDict [((s "type"), VStr (s "mediaSingle")); ((s "attrs"), VDict [((s "layout"), VStr (s "center")); ((s "width"), VInt (250)); ((s "widthType"), VStr (s "pixel"))]); ((s "content"), VList [VDict [((s "type"), VStr (s "media")); ((s "attrs"), VDict [((s "width"), VInt (580)); ((s "type"), VStr (s "external")); ((s "localId"), VStr (s "cc3089c9-2ad7-4a05-bcaa-2fe589ae03aa")); ((s "url"), VStr (s "https://www.python.org/static/img/python-logo.png")); ((s "height"), VInt (164))])]])]; VDict [((s "type"), VStr (s "paragraph")); ((s "attrs"), VDict [((s "localId"), VStr (s "4748e3e6-9f2e-4b6e-a556-943d4a8e63ea"))]); ((s "content"), VList [VDict [((s "text"), VStr (s "This is an image with clickable link")); ((s "type"), VStr (s "text"))]])]; VDict [((s "type"), VStr (s "mediaSingle")); ((s "attrs"), VDict [((s "layout"), VStr (s "center")); ((s "width"), VInt (250)); ((s "widthType"), VStr (s "pixel"))]); ((s "content"), VList [VDict [((s "type"), VStr (s "media")); ((s "attrs"), VDict [((s "width"), VInt (580)); ((s "type"), VStr (s "external")); ((s "localId"), VStr (s "0dc20a4f-04f2-4e68-a3f4-3b37b518ea93")); ((s "url"), VStr (s "https://www.python.org/static/img/python-logo.png")); ((s "height"), VInt (164))])]])]; VDict [((s "type"), VStr (s "paragraph")); ((s "attrs"), VDict [((s "localId"), VStr (s "3795adcd-6330-4cef-a54a-ed908270ef04"))]); ((s "content"), VList [VDict [((s "text"), VStr (s "This is an image with capital and clickable link")); ((s "type"), VStr (s "text"))]])]; VDict [((s "type"), VStr (s "mediaSingle")); ((s "attrs"), VDict [((s "layout"), VStr (s "center")); ((s "width"), VInt (250)); ((s "widthType"), VStr (s "pixel"))]); ((s "content"), VList [VDict [((s "type"), VStr (s "media")); ((s "attrs"), VDict [((s "width"), VInt (580)); ((s "type"), VStr (s "external")); ((s "localId"), VStr (s "48df2040-e0aa-41e3-ad0c-fce437fc87fb")); ((s "url"), VStr (s "https://www.python.org/static/img/python-logo.png")); ((s "height"), VInt (164))])]])]; VDict [((s "type"), VStr (s "heading")); ((s "attrs"), VDict [((s "level"), VInt (1)); ((s "localId"), VStr (s "342810c5-6f4d-4a8a-a8a1-b86667b87dcd"))]); ((s "content"), VList [VDict [((s "text"), VStr (s "Table 8cb9f1")); ((s "type"), VStr (s "text"))]])]; VDict [((s "type"), VStr (s "heading")); ((s "attrs"), VDict [((s "level"), VInt (2)); ((s "localId"), VStr (s "af9cf8e5-d655-4f25-8ec4-e77494c475b8"))]); ((s "content"), VList [VDict [((s "text"), VStr (s "Simple Table 69b8c4")); ((s "type"), VStr (s "text"))]])]; VDict [((s "type"), VStr (s "paragraph")); ((s "attrs"), VDict [((s "localId"), VStr (s "eab5e22d-df89-4fb6-9dd1-c3721f866b94"))]); ((s "content"), VList [VDict [((s "text"), VStr (s "simple table 1")); ((s "type"), VStr (s "text"))]])]; VDict [((s "type"), VStr (s "table")); ((s "attrs"), VDict [((s "layout"), VStr (s "default")); ((s "width"), VFloat (FFin (760) (0))); ((s "localId"), VStr (s "3134e383-b6d7-4d43-971b-1814b0aa39e3"))]); ((s "content"), VList [VDict [((s "type"), VStr (s "tableRow")); ((s "attrs"), VDict [((s "localId"), VStr (s "d34f1571-0101-4299-8219-f6aec62bfe81"))]); ((s "content"), VList [VDict [((s "type"), VStr (s "tableHeader")); ((s "attrs"), VDict [((s "colspan"), VInt (1)); ((s "rowspan"), VInt (1)); ((s "localId"), VStr (s "382de452-9372-4380-9b7f-dcc18fa50691"))]); ((s "content"), VList [VDict [((s "type"), VStr (s "paragraph")); ((s "attrs"), VDict [((s "localId"), VStr (s "ead38c3e-040d-4825-8e58-5de38b627bca"))]); ((s "content"), VList [VDict [((s "text"), VStr (s "name")); ((s "type"), VStr (s "text")); ((s "marks"), VList [VDict [((s "type"), VStr (s "strong"))]])]])]])]; VDict [((s "type"), VStr (s "tableHeader")); ((s "attrs"), VDict [((s "colspan"), VInt (1)); ((s "rowspan"), VInt (1)); ((s "localId"), VStr (s "cf23044e-c815-4dd4-8042-03df5eb7ddac"))]); ((s "content"), VList [VDict [((s "type"), VStr (s "paragraph")); ((s "attrs"), VDict [((s "localId"), VStr (s "af2fa8f8-ac9b-41bc-9084-d4ee5377d343"))]); ((s "content"), VList [VDict [((s "text"), VStr (s "age")); ((s "type"), VStr (s "text")); ((s "marks"), VList [VDict [((s "type"), VStr (s "strong"))]])]])]])]])]; VDict [((s "type"), VStr (s "tableRow")); ((s "attrs"), VDict [((s "localId"), VStr (s "fb21ff66-95e0-45c0-94be-45ddad7f9b37"))]); ((s "content"), VList [VDict [((s "type"), VStr (s "tableCell")); ((s "attrs"), VDict [((s "colspan"), VInt (1)); ((s "rowspan"), VInt (1)); ((s "localId"), VStr (s "40632032-6b15-469d-a3af-3b46dfa47070"))]); ((s "content"), VList [VDict [((s "type"), VStr (s "paragraph")); ((s "attrs"), VDict [((s "localId"), VStr (s "4d63973a-710c-4728-a35e-02094e58a811"))]); ((s "content"), VList [VDict [((s "text"), VStr (s "Alice")); ((s "type"), VStr (s "text"))]])]])]; VDict [((s "type"), VStr (s "tableCell")); ((s "attrs"), VDict [((s "colspan"), VInt (1)); ((s "rowspan"), VInt (1)); ((s "localId"), VStr (s "e9e140f3-7cb5-4b93-828c-8346193ec4ce"))]); ((s "content"), VList [VDict [((s "type"), VStr (s "paragraph")); ((s "attrs"), VDict [((s "localId"), VStr (s "b4a23e2f-a87f-45d6-acde-70df5ca27cda"))]); ((s "content"), VList [VDict [((s "text"), VStr (s "20")); ((s "type"), VStr (s "text"))]])]])]])]; VDict [((s "type"), VStr (s "tableRow")); ((s "attrs"), VDict [((s "localId"), VStr (s "bb0aaaf5-4a25-4105-ae98-a2aea91fe9e4"))]); ((s "content"), VList [VDict [((s "type"), VStr (s "tableCell")); ((s "attrs"), VDict [((s "colspan"), VInt (1)); ((s "rowspan"), VInt (1)); ((s "localId"), VStr (s "ead333bf-e7ee-47f7-bc07-fe4353f7186e"))]); ((s "content"), VList [VDict [((s "type"), VStr (s "paragraph")); ((s "attrs"), VDict [((s "localId"), VStr (s "ba5e4ee4-c420-4620-ad68-20da73941bb4"))]); ((s "content"), VList [VDict [((s "text"), VStr (s "Bob")); ((s "type"), VStr (s "text"))]])]])]; VDict [((s "type"), VStr (s "tableCell")); ((s "attrs"), VDict [((s "colspan"), VInt (1)); ((s "rowspan"), VInt (1)); ((s "localId"), VStr (s "10a0df9d-5e5e-4179-992a-cce4ab57366a"))]); ((s "content"), VList [VDict [((s "type"), VStr (s "paragraph")); ((s "attrs"), VDict [((s "localId"), VStr (s "fca13734-3d90-4911-9e68-0c203184ddd8"))]); ((s "content"), VList [VDict [((s "text"), VStr (s "35")); ((s "type"), VStr (s "text"))]])]])]])]])]; VDict [((s "type"), VStr (s "heading")); ((s "attrs"), VDict [((s "level"), VInt (2)); ((s "localId"), VStr (s "f34327de-4ba0-401b-917e-4ef76c7bb48a"))]); ((s "content"), VList [VDict [((s "text"), VStr (s "Multiline Content Table 51e9b3")); ((s "type"), VStr (s "text"))]])]; VDict [((s "type"), VStr (s "paragraph")); ((s "attrs"), VDict [((s "localId"), VStr (s "dce46513-9189-460d-876c-0054662d8e2d"))]); ((s "content"), VList [VDict [((s "text"), VStr (s "multiline content table 1")); ((s "type"), VStr (s "text"))]])]; VDict [((s "type"), VStr (s "table")); ((s "attrs"), VDict [((s "layout"), VStr (s "default")); ((s "width"), VFloat (FFin (760) (0))); ((s "localId"), VStr (s "662e4ab6-11fd-4afa-8c15-613b7bee54cb"))]); ((s "content"), VList [VDict [((s "type"), VStr (s "tableRow")); ((s "attrs"), VDict [((s "localId"), VStr (s "ef30e037-f24b-4bdc-8b9c-c8f0d64e8ad3"))]); ((s "content"), VList [VDict [((s "type"), VStr (s "tableHeader")); ((s "attrs"), VDict [((s "colspan"), VInt (1)); ((s "rowspan"), VInt (1)); ((s "localId"), VStr (s "e13712b4-dfcf-4f19-b71c-a40dd7e4336f"))]); ((s "content"), VList [VDict [((s "type"), VStr (s "paragraph")); ((s "attrs"), VDict [((s "localId"), VStr (s "70ecc891-87f7-470c-82d6-88a7aa121c62"))]); ((s "content"), VList [VDict [((s "text"), VStr (s "Col 1")); ((s "type"), VStr (s "text")); ((s "marks"), VList [VDict [((s "type"), VStr (s "strong"))]])]])]])]; VDict [((s "type"), VStr (s "tableHeader")); ((s "attrs"), VDict [((s "colspan"), VInt (1)); ((s "rowspan"), VInt (1)); ((s "localId"), VStr (s "14eea91d-4034-4b4a-9107-5f5f359e49e3"))]); ((s "content"), VList [VDict [((s "type"), VStr (s "paragraph")); ((s "attrs"), VDict [((s "localId"), VStr (s "1d75fc57-1f93-47ee-abc4-648d449041ac"))]); ((s "content"), VList [VDict [((s "text"), VStr (s "Col 2")); ((s "type"), VStr (s "text")); ((s "marks"), VList [VDict [((s "type"), VStr (s "strong"))]])]])]])]])]; VDict [((s "type"), VStr (s "tableRow")); ((s "attrs"), VDict [((s "localId"), VStr (s "f0cea19c-63b7-4ede-88a2-e201f55c0c98"))]); ((s "content"), VList [VDict [((s "type"), VStr (s "tableCell")); ((s "attrs"), VDict [((s "colspan"), VInt (1)); ((s "rowspan"), VInt (1)); ((s "localId"), VStr (s "adfad1ea-5870-4a36-aecb-cbd1ac80fab5"))]); ((s "content"), VList [VDict [((s "type"), VStr (s "paragraph")); ((s "attrs"), VDict [((s "localId"), VStr (s "727add65-d6ec-4620-83c4-fadb828c57e3"))]); ((s "content"), VList [VDict [((s "text"), VStr (s "key 1")); ((s "type"), VStr (s "text"))]])]; VDict [((s "type"), VStr (s "paragraph")); ((s "attrs"), VDict [((s "localId"), VStr (s "ba194744-aec2-40d0-bc25-4f5506463dfb"))]); ((s "content"), VList [VDict [((s "text"), VStr (s "special character | is not markdown friendly")); ((s "type"), VStr (s "text"))]])]])]; VDict [((s "type"), VStr (s "tableCell")); ((s "attrs"), VDict [((s "colspan"), VInt (1)); ((s "rowspan"), VInt (1)); ((s "localId"), VStr (s "b905db51-58fe-4fbc-a020-9f9ef99a3717"))]); ((s "content"), VList [VDict [((s "type"), VStr (s "paragraph")); ((s "attrs"), VDict [((s "localId"), VStr (s "ba6400cc-5910-46bd-afec-2d71d73a0840"))]); ((s "content"), VList [VDict [((s "text"), VStr (s "value 1")); ((s "type"), VStr (s "text"))]])]; VDict [((s "type"), VStr (s "bulletList")); ((s "attrs"), VDict [((s "localId"), VStr (s "ef875684-b91a-4a7b-a5ae-a19935506b5b"))]); ((s "content"), VList [VDict [((s "type"), VStr (s "listItem")); ((s "attrs"), VDict [((s "localId"), VStr (s "fe703d4f-d93e-4243-9518-117157c19d6f"))]); ((s "content"), VList [VDict [((s "type"), VStr (s "paragraph")); ((s "attrs"), VDict [((s "localId"), VStr (s "8f6359d7-5424-48b5-a14f-c53687fc33c6"))]); ((s "content"), VList [VDict [((s "text"), VStr (s "this is ")); ((s "type"), VStr (s "text"))]; VDict [((s "text"), VStr (s "Alice")); ((s "type"), VStr (s "text")); ((s "marks"), VList [VDict [((s "type"), VStr (s "strong"))]])]; VDict [((s "text"), VStr (s ", ")); ((s "type"), VStr (s "text"))]; VDict [((s "text"), VStr (s "Bob")); ((s "type"), VStr (s "text")); ((s "marks"), VList [VDict [((s "type"), VStr (s "em"))]])]; VDict [((s "text"), VStr (s ", ")); ((s "type"), VStr (s "text"))]; VDict [((s "text"), VStr (s "Cathy")); ((s "type"), VStr (s "text")); ((s "marks"), VList [VDict [((s "type"), VStr (s "underline"))]])]; VDict [((s "text"), VStr (s ", ")); ((s "type"), VStr (s "text"))]; VDict [((s "text"), VStr (s "David")); ((s "type"), VStr (s "text")); ((s "marks"), VList [VDict [((s "type"), VStr (s "strike"))]])]; VDict [((s "text"), VStr (s ", ")); ((s "type"), VStr (s "text"))]; VDict [((s "text"), VStr (s "Edward")); ((s "type"), VStr (s "text")); ((s "marks"), VList [VDict [((s "type"), VStr (s "code"))]])]; VDict [((s "text"), VStr (s ", ")); ((s "type"), VStr (s "text"))]; VDict [((s "text"), VStr (s "Frank")); ((s "type"), VStr (s "text")); ((s "marks"), VList [VDict [((s "type"), VStr (s "subsup")); ((s "attrs"), VDict [((s "type"), VStr (s "sub"))])]])]; VDict [((s "text"), VStr (s ", ")); ((s "type"), VStr (s "text"))]; VDict [((s "text"), VStr (s "George")); ((s "type"), VStr (s "text")); ((s "marks"), VList [VDict [((s "type"), VStr (s "subsup")); ((s "attrs"), VDict [((s "type"), VStr (s "sup"))])]])]; VDict [((s "text"), VStr (s ".")); ((s "type"), VStr (s "text"))]])]])]; VDict [((s "type"), VStr (s "listItem")); ((s "attrs"), VDict [((s "localId"), VStr (s "db723a5c-2236-45b4-9d56-0ec2e83511bf"))]); ((s "content"), VList [VDict [((s "type"), VStr (s "paragraph")); ((s "attrs"), VDict [((s "localId"), VStr (s "18d56063-f4a7-49f1-8053-3686e8efbf7e"))]); ((s "content"), VList [VDict [((s "text"), VStr (s "This line has titled hyperlink ")); ((s "type"), VStr (s "text"))]; VDict [((s "text"), VStr (s "Atlas Doc Format")); ((s "type"), VStr (s "text")); ((s "marks"), VList [VDict [((s "type"), VStr (s "link")); ((s "attrs"), VDict [((s "href"), VStr (s "https://developer.atlassian.com/cloud/jira/platform/apis/document/structure/"))])]])]; VDict [((s "text"), VStr (s ".")); ((s "type"), VStr (s "text"))]])]])]; VDict [((s "type"), VStr (s "listItem")); ((s "attrs"), VDict [((s "localId"), VStr (s "40119baa-28fc-4b3d-a300-53969a0e2a7a"))]); ((s "content"), VList [VDict [((s "type"), VStr (s "paragraph")); ((s "attrs"), VDict [((s "localId"), VStr (s "e0a1605e-0a86-4f74-9145-6c5b87e0245f"))]); ((s "content"), VList [VDict [((s "text"), VStr (s "This line has url hyperlink ")); ((s "type"), VStr (s "text"))]; VDict [((s "type"), VStr (s "inlineCard")); ((s "attrs"), VDict [((s "localId"), VStr (s "1bced674-1b64-4b44-91e9-5c1861c6427b")); ((s "url"), VStr (s "https://developer.atlassian.com/cloud/jira/platform/apis/document/structure/"))])]; VDict [((s "text"), VStr (s "    ")); ((s "type"), VStr (s "text"))]])]])]; VDict [((s "type"), VStr (s "listItem")); ((s "attrs"), VDict [((s "localId"), VStr (s "daabf9e8-3639-43db-b405-c780cf5c264c"))]); ((s "content"), VList [VDict [((s "type"), VStr (s "paragraph")); ((s "attrs"), VDict [((s "localId"), VStr (s "0877b90a-8e56-4632-86ed-dc81dbdbf12e"))]); ((s "content"), VList [VDict [((s "text"), VStr (s "This line has inline hyperlink ")); ((s "type"), VStr (s "text"))]; VDict [((s "type"), VStr (s "inlineCard")); ((s "attrs"), VDict [((s "localId"), VStr (s "93618999-2280-48cb-8c2a-44533ae2b956")); ((s "url"), VStr (s "https://developer.atlassian.com/cloud/jira/platform/apis/document/structure/"))])]])]])]])]])]])]; VDict [((s "type"), VStr (s "tableRow")); ((s "attrs"), VDict [((s "localId"), VStr (s "f9fa9ef0-f279-439f-8e4a-b344ba582c0b"))]); ((s "content"), VList [VDict [((s "type"), VStr (s "tableCell")); ((s "attrs"), VDict [((s "colspan"), VInt (1)); ((s "rowspan"), VInt (1)); ((s "localId"), VStr (s "9c1ec688-4673-4223-adde-70735df99ebb"))]); ((s "content"), VList [VDict [((s "type"), VStr (s "paragraph")); ((s "attrs"), VDict [((s "localId"), VStr (s "e54be38b-2ea1-4ac7-a0df-01374db953a4"))]); ((s "content"), VList [VDict [((s "text"), VStr (s "key 2")); ((s "type"), VStr (s "text"))]])]; VDict [((s "type"), VStr (s "paragraph")); ((s "attrs"), VDict [((s "localId"), VStr (s "c73f23c0-6924-42ad-a095-20df7006a770"))]); ((s "content"), VList [VDict [((s "text"), VStr (s "special character | is not markdown friendly")); ((s "type"), VStr (s "text"))]])]])]; VDict [((s "type"), VStr (s "tableCell")); ((s "attrs"), VDict [((s "colspan"), VInt (1)); ((s "rowspan"), VInt (1)); ((s "localId"), VStr (s "c281e09a-a8c6-4df8-b993-544917134130"))]); ((s "content"), VList [VDict [((s "type"), VStr (s "paragraph")); ((s "attrs"), VDict [((s "localId"), VStr (s "bc629060-b0c6-4587-9a06-ba4043f1cbdc"))]); ((s "content"), VList [VDict [((s "text"), VStr (s "value 2")); ((s "type"), VStr (s "text"))]])]; VDict [((s "type"), VStr (s "orderedList")); ((s "attrs"), VDict [((s "localId"), VStr (s "c4f9d402-96f8-433f-aeff-70ac4a7ae2ab")); ((s "order"), VInt (1))]); ((s "content"), VList [VDict [((s "type"), VStr (s "listItem")); ((s "attrs"), VDict [((s "localId"), VStr (s "40a7b40b-d452-4cb1-9bdc-9fc4033e6b15"))]); ((s "content"), VList [VDict [((s "type"), VStr (s "paragraph")); ((s "attrs"), VDict [((s "localId"), VStr (s "d053e768-a2c3-4498-bbdc-ae43b96e4be2"))]); ((s "content"), VList [VDict [((s "text"), VStr (s "Alice")); ((s "type"), VStr (s "text"))]])]])]; VDict [((s "type"), VStr (s "listItem")); ((s "attrs"), VDict [((s "localId"), VStr (s "5b1c5f06-414e-401c-bc42-4e17ebb0860e"))]); ((s "content"), VList [VDict [((s "type"), VStr (s "paragraph")); ((s "attrs"), VDict [((s "localId"), VStr (s "777110e7-791e-4c71-ae99-947c9438b930"))]); ((s "content"), VList [VDict [((s "text"), VStr (s "Bob")); ((s "type"), VStr (s "text"))]])]])]; VDict [((s "type"), VStr (s "listItem")); ((s "attrs"), VDict [((s "localId"), VStr (s "ef04f045-0dff-458b-96b1-bbbd40941775"))]); ((s "content"), VList [VDict [((s "type"), VStr (s "paragraph")); ((s "attrs"), VDict [((s "localId"), VStr (s "93d3f975-df07-40c4-bcb2-380cf66ea75e"))]); ((s "content"), VList [VDict [((s "text"), VStr (s "Cathy")); ((s "type"), VStr (s "text"))]])]; VDict [((s "type"), VStr (s "orderedList")); ((s "attrs"), VDict [((s "localId"), VStr (s "b064e949-4c8a-4820-9a6b-514e61463318")); ((s "order"), VInt (1))]); ((s "content"), VList [VDict [((s "type"), VStr (s "listItem")); ((s "attrs"), VDict [((s "localId"), VStr (s "caa6e626-89bc-4dfe-ad81-a029fdb1efac"))]); ((s "content"), VList [VDict [((s "type"), VStr (s "paragraph")); ((s "attrs"), VDict [((s "localId"), VStr (s "cedc8c12-39d5-475f-ac0b-a6a2207635d2"))]); ((s "content"), VList [VDict [((s "text"), VStr (s "Cathy 1")); ((s "type"), VStr (s "text"))]])]; VDict [((s "type"), VStr (s "orderedList")); ((s "attrs"), VDict [((s "localId"), VStr (s "446d463d-ab47-4af0-9487-07e31cb2724d")); ((s "order"), VInt (1))]); ((s "content"), VList [VDict [((s "type"), VStr (s "listItem")); ((s "attrs"), VDict [((s "localId"), VStr (s "fa1c80ec-7999-41e0-ae8a-5a0a20c24316"))]); ((s "content"), VList [VDict [((s "type"), VStr (s "paragraph")); ((s "attrs"), VDict [((s "localId"), VStr (s "6d5c3ffd-15dd-4922-ad2a-d80ce2eb11ae"))]); ((s "content"), VList [VDict [((s "text"), VStr (s "Cathy 1.1")); ((s "type"), VStr (s "text"))]])]])]; VDict [((s "type"), VStr (s "listItem")); ((s "attrs"), VDict [((s "localId"), VStr (s "a8a81a01-109c-4081-89ef-98aed7b52ddc"))]); ((s "content"), VList [VDict [((s "type"), VStr (s "paragraph")); ((s "attrs"), VDict [((s "localId"), VStr (s "277cd2cc-09e1-4635-8da6-d1596f12d7b1"))]); ((s "content"), VList [VDict [((s "text"), VStr (s "Cathy 1.2")); ((s "type"), VStr (s "text"))]])]])]])]])]; VDict [((s "type"), VStr (s "listItem")); ((s "attrs"), VDict [((s "localId"), VStr (s "62e779b2-ece2-44f4-9521-6e4a37e3bf03"))]); ((s "content"), VList [VDict [((s "type"), VStr (s "paragraph")); ((s "attrs"), VDict [((s "localId"), VStr (s "50645736-7c00-4732-adaf-fca57ffd2aec"))]); ((s "content"), VList [VDict [((s "text"), VStr (s "Cathy 2")); ((s "type"), VStr (s "text"))]])]; VDict [((s "type"), VStr (s "orderedList")); ((s "attrs"), VDict [((s "localId"), VStr (s "34130b48-4ab3-4651-8eb3-26f31f9e7f54")); ((s "order"), VInt (1))]); ((s "content"), VList [VDict [((s "type"), VStr (s "listItem")); ((s "attrs"), VDict [((s "localId"), VStr (s "c9f7018b-d348-46ec-8d2c-8ce743fd5c59"))]); ((s "content"), VList [VDict [((s "type"), VStr (s "paragraph")); ((s "attrs"), VDict [((s "localId"), VStr (s "5b4da96e-364f-49bd-a7d3-2b459cff8e28"))]); ((s "content"), VList [VDict [((s "text"), VStr (s "Cathy 2.1")); ((s "type"), VStr (s "text"))]])]])]; VDict [((s "type"), VStr (s "listItem")); ((s "attrs"), VDict [((s "localId"), VStr (s "4ff85bea-c77f-48d4-a717-ff0a1e670d4a"))]); ((s "content"), VList [VDict [((s "type"), VStr (s "paragraph")); ((s "attrs"), VDict [((s "localId"), VStr (s "d9b871c5-faa7-4019-8169-43f9f614ce6e"))]); ((s "content"), VList [VDict [((s "text"), VStr (s "Cathy 2.2")); ((s "type"), VStr (s "text"))]])]])]])]])]])]])]])]])]])]; VDict [((s "type"), VStr (s "tableRow")); ((s "attrs"), VDict [((s "localId"), VStr (s "0f91786f-f154-4bd1-9788-e7c154d3de4c"))]); ((s "content"), VList [VDict [((s "type"), VStr (s "tableCell")); ((s "attrs"), VDict [((s "colspan"), VInt (1)); ((s "rowspan"), VInt (1)); ((s "localId"), VStr (s "ae003129-7b8e-41b9-9ee4-2222650a9438"))]); ((s "content"), VList [VDict [((s "type"), VStr (s "paragraph")); ((s "attrs"), VDict [((s "localId"), VStr (s "d55e8081-bf73-4394-8f42-03650c6d52d9"))]); ((s "content"), VList [VDict [((s "text"), VStr (s "key 3")); ((s "type"), VStr (s "text"))]])]; VDict [((s "type"), VStr (s "paragraph")); ((s "attrs"), VDict [((s "localId"), VStr (s "b391e94d-0b20-47ba-8374-50c7e03df505"))]); ((s "content"), VList [VDict [((s "text"), VStr (s "special character | is not markdown friendly")); ((s "type"), VStr (s "text"))]])]])]; VDict [((s "type"), VStr (s "tableCell")); ((s "attrs"), VDict [((s "colspan"), VInt (1)); ((s "rowspan"), VInt (1)); ((s "localId"), VStr (s "774ee2b8-be59-4c78-adf8-c9b5e7ea7d5a"))]); ((s "content"), VList [VDict [((s "type"), VStr (s "paragraph")); ((s "attrs"), VDict [((s "localId"), VStr (s "e38d8d26-0b27-4bd2-b37e-4ae22e8d3d2d"))]); ((s "content"), VList [VDict [((s "text"), VStr (s "value 3")); ((s "type"), VStr (s "text"))]])]; VDict [((s "type"), VStr (s "taskList")); ((s "attrs"), VDict [((s "localId"), VStr (s "904f5726-4f9d-4d34-8755-423a2a54ae5b"))]); ((s "content"), VList [VDict [((s "type"), VStr (s "taskItem")); ((s "attrs"), VDict [((s "state"), VStr (s "DONE")); ((s "localId"), VStr (s "dede3f18-fa7d-4404-a8cf-1bf8e8aea7af"))]); ((s "content"), VList [VDict [((s "text"), VStr (s "Do this")); ((s "type"), VStr (s "text"))]])]; VDict [((s "type"), VStr (s "taskItem")); ((s "attrs"), VDict [((s "state"), VStr (s "TODO")); ((s "localId"), VStr (s "52798c0a-43ed-4ad0-ac69-bfa1e4760fa2"))]); ((s "content"), VList [VDict [((s "text"), VStr (s "And do ")); ((s "type"), VStr (s "text"))]; VDict [((s "text"), VStr (s "this")); ((s "type"), VStr (s "text")); ((s "marks"), VList [VDict [((s "type"), VStr (s "strong"))]])]])]; VDict [((s "type"), VStr (s "taskList")); ((s "attrs"), VDict [((s "localId"), VStr (s "f50ed7f7-d3d8-4414-b2f2-5d7b997be4d3"))]); ((s "content"), VList [VDict [((s "type"), VStr (s "taskItem")); ((s "attrs"), VDict [((s "state"), VStr (s "TODO")); ((s "localId"), VStr (s "866c9df9-b259-4801-b868-13d64714e6e4"))]); ((s "content"), VList [VDict [((s "text"), VStr (s "sub ")); ((s "type"), VStr (s "text"))]; VDict [((s "text"), VStr (s "task")); ((s "type"), VStr (s "text")); ((s "marks"), VList [VDict [((s "type"), VStr (s "code"))]])]; VDict [((s "text"), VStr (s " 1")); ((s "type"), VStr (s "text"))]])]; VDict [((s "type"), VStr (s "taskList")); ((s "attrs"), VDict [((s "localId"), VStr (s "ccc781ef-d30f-47af-8c07-dd6d09731c67"))]); ((s "content"), VList [VDict [((s "type"), VStr (s "taskItem")); ((s "attrs"), VDict [((s "state"), VStr (s "DONE")); ((s "localId"), VStr (s "0dfdf0d1-88bf-46fe-951d-f58bd5c5fad7"))]); ((s "content"), VList [VDict [((s "text"), VStr (s "sub ")); ((s "type"), VStr (s "text"))]; VDict [((s "text"), VStr (s "task")); ((s "type"), VStr (s "text")); ((s "marks"), VList [VDict [((s "type"), VStr (s "underline"))]])]; VDict [((s "text"), VStr (s " 1.1")); ((s "type"), VStr (s "text"))]])]; VDict [((s "type"), VStr (s "taskItem")); ((s "attrs"), VDict [((s "state"), VStr (s "TODO")); ((s "localId"), VStr (s "46c8a37b-a256-4b76-8f48-fb758c4e0c21"))]); ((s "content"), VList [VDict [((s "text"), VStr (s "sub ")); ((s "type"), VStr (s "text"))]; VDict [((s "text"), VStr (s "task")); ((s "type"), VStr (s "text")); ((s "marks"), VList [VDict [((s "type"), VStr (s "strike"))]])]; VDict [((s "text"), VStr (s " 1.2")); ((s "type"), VStr (s "text"))]])]])]; VDict [((s "type"), VStr (s "taskItem")); ((s "attrs"), VDict [((s "state"), VStr (s "TODO")); ((s "localId"), VStr (s "27b02d3d-99d7-4e43-944d-c5730ae409fc"))]); ((s "content"), VList [VDict [((s "text"), VStr (s "sub ")); ((s "type"), VStr (s "text"))]; VDict [((s "text"), VStr (s "task")); ((s "type"), VStr (s "text")); ((s "marks"), VList [VDict [((s "type"), VStr (s "strong"))]])]; VDict [((s "text"), VStr (s " 2")); ((s "type"), VStr (s "text"))]])]; VDict [((s "type"), VStr (s "taskList")); ((s "attrs"), VDict [((s "localId"), VStr (s "7fb1cdf0-55b1-4cb1-8b00-32772855118c"))]); ((s "content"), VList [VDict [((s "type"), VStr (s "taskItem")); ((s "attrs"), VDict [((s "state"), VStr (s "TODO")); ((s "localId"), VStr (s "4e28750b-a680-48d1-8d7a-f2b86189cece"))]); ((s "content"), VList [VDict [((s "text"), VStr (s "sub ")); ((s "type"), VStr (s "text"))]; VDict [((s "text"), VStr (s "task")); ((s "type"), VStr (s "text")); ((s "marks"), VList [VDict [((s "type"), VStr (s "textColor")); ((s "attrs"), VDict [((s "color"), VStr (s "#ff5630"))])]])]; VDict [((s "text"), VStr (s " 2.1")); ((s "type"), VStr (s "text"))]])]; VDict [((s "type"), VStr (s "taskItem")); ((s "attrs"), VDict [((s "state"), VStr (s "DONE")); ((s "localId"), VStr (s "39b14a9b-f5ab-494f-bfe0-fc63e22f8e9d"))]); ((s "content"), VList [VDict [((s "text"), VStr (s "sub ")); ((s "type"), VStr (s "text"))]; VDict [((s "text"), VStr (s "task")); ((s "type"), VStr (s "text")); ((s "marks"), VList [VDict [((s "type"), VStr (s "backgroundColor")); ((s "attrs"), VDict [((s "color"), VStr (s "#c6edfb"))])]])]; VDict [((s "text"), VStr (s " 2.2")); ((s "type"), VStr (s "text"))]])]])]])]])]])]])]])]; VDict [((s "type"), VStr (s "heading")); ((s "attrs"), VDict [((s "level"), VInt (1)); ((s "localId"), VStr (s "e9741c28-674c-4b04-a1a9-638ed30a2d06"))]); ((s "content"), VList [VDict [((s "text"), VStr (s "Expand 0479c0")); ((s "type"), VStr (s "text"))]])]; VDict [((s "type"), VStr (s "paragraph")); ((s "attrs"), VDict [((s "localId"), VStr (s "4c1d0292-b028-4fe0-9448-9dc7561c3e78"))]); ((s "content"), VList [VDict [((s "text"), VStr (s "This is a expandable container")); ((s "type"), VStr (s "text"))]])]; VDict [((s "type"), VStr (s "expand")); ((s "attrs"), VDict [((s "title"), VStr (s "This is an expand title")); ((s "localId"), VStr (s "778327da-5cab-41ec-9167-2a0ac7db30f5"))]); ((s "content"), VList [VDict [((s "type"), VStr (s "paragraph")); ((s "attrs"), VDict [((s "localId"), VStr (s "befb1b8f-b344-49df-9d98-4a66e96f3a88"))]); ((s "content"), VList [VDict [((s "text"), VStr (s "this is expand content")); ((s "type"), VStr (s "text"))]])]; VDict [((s "type"), VStr (s "bulletList")); ((s "attrs"), VDict [((s "localId"), VStr (s "a99fe140-262c-4562-bcc6-7b15b90e2c18"))]); ((s "content"), VList [VDict [((s "type"), VStr (s "listItem")); ((s "attrs"), VDict [((s "localId"), VStr (s "ab14b3a1-1111-4a24-9333-98d7d423610f"))]); ((s "content"), VList [VDict [((s "type"), VStr (s "paragraph")); ((s "attrs"), VDict [((s "localId"), VStr (s "76e5b308-021e-48a3-9e7a-76867453739e"))]); ((s "content"), VList [VDict [((s "text"), VStr (s "bullet 1 in expand content")); ((s "type"), VStr (s "text"))]])]])]; VDict [((s "type"), VStr (s "listItem")); ((s "attrs"), VDict [((s "localId"), VStr (s "a726fec9-c165-4429-8b0f-c5a1851b773d"))]); ((s "content"), VList [VDict [((s "type"), VStr (s "paragraph")); ((s "attrs"), VDict [((s "localId"), VStr (s "fa03135b-246f-43c3-bce3-de7e21925853"))]); ((s "content"), VList [VDict [((s "text"), VStr (s "bullet 2 in expand content")); ((s "type"), VStr (s "text"))]])]])]; VDict [((s "type"), VStr (s "listItem")); ((s "attrs"), VDict [((s "localId"), VStr (s "0e08250b-69e3-4fdf-a32b-421d014e4f6d"))]); ((s "content"), VList [VDict [((s "type"), VStr (s "paragraph")); ((s "attrs"), VDict [((s "localId"), VStr (s "e144129f-9bd8-4a37-80c9-299c90d8b679"))]); ((s "content"), VList [VDict [((s "text"), VStr (s "bullet 3 in expand content")); ((s "type"), VStr (s "text"))]])]])]])]; VDict [((s "type"), VStr (s "blockquote")); ((s "attrs"), VDict [((s "localId"), VStr (s "f45a91bf-79c2-4d8f-b24c-0695d18b7572"))]); ((s "content"), VList [VDict [((s "type"), VStr (s "paragraph")); ((s "attrs"), VDict [((s "localId"), VStr (s "7129f4d6-5805-42e1-855a-111484003270"))]); ((s "content"), VList [VDict [((s "text"), VStr (s "Quote something here in expand content")); ((s "type"), VStr (s "text"))]])]])]; VDict [((s "type"), VStr (s "paragraph")); ((s "attrs"), VDict [((s "localId"), VStr (s "070c686c-7eea-4e8e-904f-f888e38073d0"))]); ((s "content"), VList [VDict [((s "text"), VStr (s "end of expand content")); ((s "type"), VStr (s "text"))]])]])]; VDict [((s "type"), VStr (s "heading")); ((s "attrs"), VDict [((s "level"), VInt (1)); ((s "localId"), VStr (s "74101a20-d671-4a94-8077-8323121dd282"))]); ((s "content"), VList [VDict [((s "text"), VStr (s "Quote 08e36f")); ((s "type"), VStr (s "text"))]])]; VDict [((s "type"), VStr (s "heading")); ((s "attrs"), VDict [((s "level"), VInt (2)); ((s "localId"), VStr (s "3458f1b6-01e9-4b03-8eb4-ee8e58972ad2"))]); ((s "content"), VList [VDict [((s "text"), VStr (s "Simple Quote 84378f")); ((s "type"), VStr (s "text"))]])]; VDict [((s "type"), VStr (s "paragraph")); ((s "attrs"), VDict [((s "localId"), VStr (s "0404b2c4-09ba-43eb-addb-0bda5d3f1348"))]); ((s "content"), VList [VDict [((s "text"), VStr (s "simple quote 1")); ((s "type"), VStr (s "text"))]])]; VDict [((s "type"), VStr (s "blockquote")); ((s "attrs"), VDict [((s "localId"), VStr (s "b7dcf834-fd11-437f-8741-28f4884cf0d4"))]); ((s "content"), VList [VDict [((s "type"), VStr (s "paragraph")); ((s "attrs"), VDict [((s "localId"), VStr (s "00bfa498-6125-422d-9b4d-cc4c33e07cbe"))]); ((s "content"), VList [VDict [((s "text"), VStr (s "Alice says:")); ((s "type"), VStr (s "text"))]])]; VDict [((s "type"), VStr (s "paragraph")); ((s "attrs"), VDict [((s "localId"), VStr (s "aa772068-679d-4bfc-b414-66eade6c8c24"))]); ((s "content"), VList [VDict [((s "text"), VStr (s "Just do it!")); ((s "type"), VStr (s "text"))]])]])]; VDict [((s "type"), VStr (s "heading")); ((s "attrs"), VDict [((s "level"), VInt (2)); ((s "localId"), VStr (s "81bf05d4-6b5a-45e9-82ff-b2e7a4fbff39"))]); ((s "content"), VList [VDict [((s "text"), VStr (s "Quote as Container b644da")); ((s "type"), VStr (s "text"))]])]; VDict [((s "type"), VStr (s "paragraph")); ((s "attrs"), VDict [((s "localId"), VStr (s "2e9ac6da-634e-4a51-a61a-f3d5bd5ef731"))]); ((s "content"), VList [VDict [((s "text"), VStr (s "quote as container 1")); ((s "type"), VStr (s "text"))]])]; VDict [((s "type"), VStr (s "blockquote")); ((s "attrs"), VDict [((s "localId"), VStr (s "e73514cf-ed03-4ae4-b17d-05359b5f371b"))]); ((s "content"), VList [VDict [((s "type"), VStr (s "paragraph")); ((s "attrs"), VDict [((s "localId"), VStr (s "9dfac072-7c75-464b-9dc8-8f75d21b1cff"))]); ((s "content"), VList [VDict [((s "text"), VStr (s "This is a one line paragraph. Text may have ")); ((s "type"), VStr (s "text"))]; VDict [((s "text"), VStr (s "bold")); ((s "type"), VStr (s "text")); ((s "marks"), VList [VDict [((s "type"), VStr (s "strong"))]])]; VDict [((s "text"), VStr (s ", ")); ((s "type"), VStr (s "text"))]; VDict [((s "text"), VStr (s "italic")); ((s "type"), VStr (s "text")); ((s "marks"), VList [VDict [((s "type"), VStr (s "em"))]])]; VDict [((s "text"), VStr (s ", ")); ((s "type"), VStr (s "text"))]; VDict [((s "text"), VStr (s "underscore")); ((s "type"), VStr (s "text")); ((s "marks"), VList [VDict [((s "type"), VStr (s "underline"))]])]; VDict [((s "text"), VStr (s ", ")); ((s "type"), VStr (s "text"))]; VDict [((s "text"), VStr (s "strike through")); ((s "type"), VStr (s "text")); ((s "marks"), VList [VDict [((s "type"), VStr (s "strike"))]])]; VDict [((s "text"), VStr (s ", ")); ((s "type"), VStr (s "text"))]; VDict [((s "text"), VStr (s "hyperlink")); ((s "type"), VStr (s "text")); ((s "marks"), VList [VDict [((s "type"), VStr (s "link")); ((s "attrs"), VDict [((s "href"), VStr (s "https://developer.atlassian.com/cloud/jira/platform/apis/document/structure/"))])]])]; VDict [((s "text"), VStr (s " and more.")); ((s "type"), VStr (s "text"))]])]; VDict [((s "type"), VStr (s "paragraph")); ((s "attrs"), VDict [((s "localId"), VStr (s "1006bb6a-273b-4bae-b013-37b94823e516"))]); ((s "content"), VList [VDict [((s "text"), VStr (s "This is a bullet list")); ((s "type"), VStr (s "text"))]])]; VDict [((s "type"), VStr (s "bulletList")); ((s "attrs"), VDict [((s "localId"), VStr (s "ad9600ba-116c-4de3-8c4a-3ad3a7bd662f"))]); ((s "content"), VList [VDict [((s "type"), VStr (s "listItem")); ((s "attrs"), VDict [((s "localId"), VStr (s "e08f8346-946d-444e-bcd6-fbfdde3d3366"))]); ((s "content"), VList [VDict [((s "type"), VStr (s "paragraph")); ((s "attrs"), VDict [((s "localId"), VStr (s "3c9d95af-fc1b-499b-9124-ea14b65999ad"))]); ((s "content"), VList [VDict [((s "text"), VStr (s "bullet 1 in quote")); ((s "type"), VStr (s "text"))]])]])]; VDict [((s "type"), VStr (s "listItem")); ((s "attrs"), VDict [((s "localId"), VStr (s "226f9ac2-03bc-4b52-acef-047f365bbf1a"))]); ((s "content"), VList [VDict [((s "type"), VStr (s "paragraph")); ((s "attrs"), VDict [((s "localId"), VStr (s "f6eefcb3-6de4-41b5-80d1-858d44ed44db"))]); ((s "content"), VList [VDict [((s "text"), VStr (s "bullet 2 in quote")); ((s "type"), VStr (s "text"))]])]])]])]; VDict [((s "type"), VStr (s "paragraph")); ((s "attrs"), VDict [((s "localId"), VStr (s "e26cd84d-96b7-43c2-b0ac-c085790871b9"))]); ((s "content"), VList [VDict [((s "text"), VStr (s "Code block in quote")); ((s "type"), VStr (s "text"))]])]; VDict [((s "type"), VStr (s "paragraph")); ((s "attrs"), VDict [((s "localId"), VStr (s "f592a1d3-75d3-4d88-821d-3f5d937dedd9"))]); ((s "content"), VList [VDict [((s "text"), VStr (s "Start")); ((s "type"), VStr (s "text"))]])]; VDict [((s "type"), VStr (s "codeBlock")); ((s "attrs"), VDict [((s "language"), VStr (s "python")); ((s "localId"), VStr (s "56beafeb-f14a-4ab7-b127-422a9f55ea7b"))]); ((s "content"), VList [VDict [((s "text"), VStr [100; 101; 102; 32; 109; 117; 108; 95; 116; 119; 111; 40; 97; 44; 32; 98; 41; 58; 10; 32; 32; 32; 32; 114; 101; 116; 117; 114; 110; 32; 97; 32; 42; 32; 98]%N); ((s "type"), VStr (s "text"))]])]; VDict [((s "type"), VStr (s "paragraph")); ((s "attrs"), VDict [((s "localId"), VStr (s "45f5c120-bff7-44e3-94b9-10f4d7dce19c"))]); ((s "content"), VList [VDict [((s "text"), VStr (s "End")); ((s "type"), VStr (s "text"))]])]])]; VDict [((s "type"), VStr (s "heading")); ((s "attrs"), VDict [((s "level"), VInt (1)); ((s "localId"), VStr (s "d63e4743-07f0-43c5-b482-dc78a4e2540d"))]); ((s "content"), VList [VDict [((s "text"), VStr (s "Panel 8c4bed")); ((s "type"), VStr (s "text"))]])]; VDict [((s "type"), VStr (s "paragraph")); ((s "attrs"), VDict [((s "localId"), VStr (s "220fc907-b468-4ad3-86ef-c0ac355f4227"))]); ((s "content"), VList [VDict [((s "text"), VStr (s "This is an info")); ((s "type"), VStr (s "text"))]])]; VDict [((s "type"), VStr (s "panel")); ((s "attrs"), VDict [((s "panelType"), VStr (s "info")); ((s "localId"), VStr (s "a825d2df-52b0-4008-84a1-db57a77d82d3"))]); ((s "content"), VList [VDict [((s "type"), VStr (s "paragraph")); ((s "attrs"), VDict [((s "localId"), VStr (s "ca00681e-de6b-4d9a-8a3c-6b6f77b5e42b"))]); ((s "content"), VList [VDict [((s "text"), VStr (s "Info here")); ((s "type"), VStr (s "text"))]])]; VDict [((s "type"), VStr (s "paragraph")); ((s "attrs"), VDict [((s "localId"), VStr (s "4b872703-f0e1-459d-823d-f7ad2f6d2116"))]); ((s "content"), VList [VDict [((s "text"), VStr (s "This is a one line paragraph. Text may have ")); ((s "type"), VStr (s "text"))]; VDict [((s "text"), VStr (s "bold")); ((s "type"), VStr (s "text")); ((s "marks"), VList [VDict [((s "type"), VStr (s "strong"))]])]; VDict [((s "text"), VStr (s ", ")); ((s "type"), VStr (s "text"))]; VDict [((s "text"), VStr (s "italic")); ((s "type"), VStr (s "text")); ((s "marks"), VList [VDict [((s "type"), VStr (s "em"))]])]; VDict [((s "text"), VStr (s ", ")); ((s "type"), VStr (s "text"))]; VDict [((s "text"), VStr (s "underscore")); ((s "type"), VStr (s "text")); ((s "marks"), VList [VDict [((s "type"), VStr (s "underline"))]])]; VDict [((s "text"), VStr (s ", ")); ((s "type"), VStr (s "text"))]; VDict [((s "text"), VStr (s "strike through")); ((s "type"), VStr (s "text")); ((s "marks"), VList [VDict [((s "type"), VStr (s "strike"))]])]; VDict [((s "text"), VStr (s ", ")); ((s "type"), VStr (s "text"))]; VDict [((s "text"), VStr (s "hyperlink")); ((s "type"), VStr (s "text")); ((s "marks"), VList [VDict [((s "type"), VStr (s "link")); ((s "attrs"), VDict [((s "href"), VStr (s "https://developer.atlassian.com/cloud/jira/platform/apis/document/structure/"))])]])]; VDict [((s "text"), VStr (s " and more.")); ((s "type"), VStr (s "text"))]])]; VDict [((s "type"), VStr (s "paragraph")); ((s "attrs"), VDict [((s "localId"), VStr (s "97092c5e-011b-4289-bc12-c3d7039ec023"))]); ((s "content"), VList [VDict [((s "text"), VStr (s "This is a bullet list")); ((s "type"), VStr (s "text"))]])]; VDict [((s "type"), VStr (s "bulletList")); ((s "attrs"), VDict [((s "localId"), VStr (s "6f8fac9e-adbd-4ad7-9d8a-759ee98ce833"))]); ((s "content"), VList [VDict [((s "type"), VStr (s "listItem")); ((s "attrs"), VDict [((s "localId"), VStr (s "7a49192b-4816-42fb-a308-8499a650e28b"))]); ((s "content"), VList [VDict [((s "type"), VStr (s "paragraph")); ((s "attrs"), VDict [((s "localId"), VStr (s "a3c77953-9dca-4a8f-93f3-3bf23b92149a"))]); ((s "content"), VList [VDict [((s "text"), VStr (s "bullet 1 in panel")); ((s "type"), VStr (s "text"))]])]])]; VDict [((s "type"), VStr (s "listItem")); ((s "attrs"), VDict [((s "localId"), VStr (s "a6041c67-108b-4c44-bbb9-384732aa3171"))]); ((s "content"), VList [VDict [((s "type"), VStr (s "paragraph")); ((s "attrs"), VDict [((s "localId"), VStr (s "078475e3-1d87-4abe-a71c-cc165bfdd6c9"))]); ((s "content"), VList [VDict [((s "text"), VStr (s "bullet 2 in panel")); ((s "type"), VStr (s "text"))]])]])]])]; VDict [((s "type"), VStr (s "paragraph")); ((s "attrs"), VDict [((s "localId"), VStr (s "9c54bf6c-d602-424a-bd81-87f911661260"))]); ((s "content"), VList [VDict [((s "text"), VStr (s "Code block in quote")); ((s "type"), VStr (s "text"))]])]; VDict [((s "type"), VStr (s "paragraph")); ((s "attrs"), VDict [((s "localId"), VStr (s "29fc4014-d0de-41dc-885a-d04e7458ba59"))]); ((s "content"), VList [VDict [((s "text"), VStr (s "Start")); ((s "type"), VStr (s "text"))]])]; VDict [((s "type"), VStr (s "codeBlock")); ((s "attrs"), VDict [((s "language"), VStr (s "python")); ((s "localId"), VStr (s "300787f6-525e-48d9-852d-22570d2e514e"))]); ((s "content"), VList [VDict [((s "text"), VStr [100; 101; 102; 32; 109; 117; 108; 95; 116; 119; 111; 40; 97; 44; 32; 98; 41; 58; 10; 32; 32; 32; 32; 114; 101; 116; 117; 114; 110; 32; 97; 32; 42; 32; 98]%N); ((s "type"), VStr (s "text"))]])]; VDict [((s "type"), VStr (s "paragraph")); ((s "attrs"), VDict [((s "localId"), VStr (s "8efebc01-ff3c-4a08-81b2-631d861c0428"))]); ((s "content"), VList [VDict [((s "text"), VStr (s "End")); ((s "type"), VStr (s "text"))]])]])]; VDict [((s "type"), VStr (s "paragraph")); ((s "attrs"), VDict [((s "localId"), VStr (s "1b680d16-68ec-4ca4-bc2f-94e399bdf646"))]); ((s "content"), VList [VDict [((s "text"), VStr (s "This is a note")); ((s "type"), VStr (s "text"))]])]; VDict [((s "type"), VStr (s "panel")); ((s "attrs"), VDict [((s "panelType"), VStr (s "note")); ((s "localId"), VStr (s "f8a6d89d-9e3a-4e92-9ae2-57c037b47278"))]); ((s "content"), VList [VDict [((s "type"), VStr (s "paragraph")); ((s "attrs"), VDict [((s "localId"), VStr (s "30539389-4b8e-4984-bac9-71792d7b42f1"))]); ((s "content"), VList [VDict [((s "text"), VStr (s "Note here")); ((s "type"), VStr (s "text"))]])]])]; VDict [((s "type"), VStr (s "paragraph")); ((s "attrs"), VDict [((s "localId"), VStr (s "de72aef8-c4f7-402f-838c-ae42a97c3ee6"))]); ((s "content"), VList [VDict [((s "text"), VStr (s "This is a success")); ((s "type"), VStr (s "text"))]])]; VDict [((s "type"), VStr (s "panel")); ((s "attrs"), VDict [((s "panelType"), VStr (s "success")); ((s "localId"), VStr (s "e5e6ee8c-93b0-4fc9-932c-bf4eb2bed81e"))]); ((s "content"), VList [VDict [((s "type"), VStr (s "paragraph")); ((s "attrs"), VDict [((s "localId"), VStr (s "967326c9-e72e-419d-8efa-0cbbdf192d2e"))]); ((s "content"), VList [VDict [((s "text"), VStr (s "Success here")); ((s "type"), VStr (s "text"))]])]])]; VDict [((s "type"), VStr (s "paragraph")); ((s "attrs"), VDict [((s "localId"), VStr (s "cc1ee0f0-80d4-41ab-ba2e-f4adab6e364e"))]); ((s "content"), VList [VDict [((s "text"), VStr (s "This is a warning")); ((s "type"), VStr (s "text"))]])]; VDict [((s "type"), VStr (s "panel")); ((s "attrs"), VDict [((s "panelType"), VStr (s "warning")); ((s "localId"), VStr (s "b717a52b-d95a-48d1-a370-451e76e1a209"))]); ((s "content"), VList [VDict [((s "type"), VStr (s "paragraph")); ((s "attrs"), VDict [((s "localId"), VStr (s "6c2bd12a-851e-40c3-95ba-efa2ea3324be"))]); ((s "content"), VList [VDict [((s "text"), VStr (s "Warning here")); ((s "type"), VStr (s "text"))]])]])]; VDict [((s "type"), VStr (s "paragraph")); ((s "attrs"), VDict [((s "localId"), VStr (s "b347002d-5dfc-493a-8fdb-ee61e3b357d5"))]); ((s "content"), VList [VDict [((s "text"), VStr (s "This is a error")); ((s "type"), VStr (s "text"))]])]; VDict [((s "type"), VStr (s "panel")); ((s "attrs"), VDict [((s "panelType"), VStr (s "error")); ((s "localId"), VStr (s "0e889638-688c-48ba-87c9-4176f1ba0f30"))]); ((s "content"), VList [VDict [((s "type"), VStr (s "paragraph")); ((s "attrs"), VDict [((s "localId"), VStr (s "a8483514-fe59-4531-9508-e38a493e7e6e"))]); ((s "content"), VList [VDict [((s "text"), VStr (s "Error here")); ((s "type"), VStr (s "text"))]])]])]; VDict [((s "type"), VStr (s "paragraph")); ((s "attrs"), VDict [((s "localId"), VStr (s "dc12756e-715f-4383-bb2e-82f883e9bf90"))]); ((s "content"), VList [VDict [((s "text"), VStr (s "This is a custom emoji")); ((s "type"), VStr (s "text"))]])]; VDict [((s "type"), VStr (s "panel")); ((s "attrs"), VDict [((s "panelIconId"), VStr (s "atlassian-light_bulb_on")); ((s "panelIcon"), VStr (s ":light_bulb_on:")); ((s "panelIconText"), VStr (s ":light_bulb_on:")); ((s "panelColor"), VStr (s "#EAE6FF")); ((s "panelType"), VStr (s "custom")); ((s "localId"), VStr (s "29c43532-9cd0-4793-b7a3-4c7ea7a1a9b3"))]); ((s "content"), VList [VDict [((s "type"), VStr (s "paragraph")); ((s "attrs"), VDict [((s "localId"), VStr (s "a001e18b-dbaa-4c75-9e4e-be02c6d41791"))]); ((s "content"), VList [VDict [((s "text"), VStr (s "Custom emoji info here")); ((s "type"), VStr (s "text"))]])]])]; VDict [((s "type"), VStr (s "paragraph")); ((s "attrs"), VDict [((s "localId"), VStr (s "367d9b56-fbac-4e26-9138-da7ec0bd5a9b"))]); ((s "content"), VList [VDict [((s "text"), VStr (s "This is an decision")); ((s "type"), VStr (s "text"))]])]; VDict [((s "type"), VStr (s "decisionList")); ((s "attrs"), VDict [((s "localId"), VStr (s "d079a47f-6b3b-441b-bf8f-273407eab47b"))]); ((s "content"), VList [VDict [((s "type"), VStr (s "decisionItem")); ((s "attrs"), VDict [((s "state"), VStr (s "DECIDED")); ((s "localId"), VStr (s "c0bd33bc-7504-41f5-88b5-e259bfcd5fa6"))]); ((s "content"), VList [VDict [((s "text"), VStr (s "Decision title")); ((s "type"), VStr (s "text"))]; VDict [((s "type"), VStr (s "hardBreak"))]; VDict [((s "type"), VStr (s "hardBreak"))]; VDict [((s "text"), VStr (s "decision body here")); ((s "type"), VStr (s "text"))]; VDict [((s "type"), VStr (s "hardBreak"))]; VDict [((s "text"), VStr (s "- alice")); ((s "type"), VStr (s "text"))]; VDict [((s "type"), VStr (s "hardBreak"))]; VDict [((s "text"), VStr (s "- bob")); ((s "type"), VStr (s "text"))]; VDict [((s "type"), VStr (s "hardBreak"))]; VDict [((s "text"), VStr (s "- cathy")); ((s "type"), VStr (s "text"))]; VDict [((s "type"), VStr (s "hardBreak"))]; VDict [((s "type"), VStr (s "hardBreak"))]; VDict [((s "text"), VStr (s "This is pure text only")); ((s "type"), VStr (s "text"))]])]])]; VDict [((s "type"), VStr (s "paragraph")); ((s "attrs"), VDict [((s "localId"), VStr (s "90090373-897b-4cdb-a6db-89e2aa891544"))]); ((s "content"), VList [VDict [((s "text"), VStr (s "This is an Date")); ((s "type"), VStr (s "text"))]])]; VDict [((s "type"), VStr (s "paragraph")); ((s "attrs"), VDict [((s "localId"), VStr (s "a579f4ce-747a-4048-bb08-b926b39366b0"))]); ((s "content"), VList [VDict [((s "type"), VStr (s "date")); ((s "attrs"), VDict [((s "localId"), VStr (s "325b4a25-0c42-416f-b267-61c988b1be39")); ((s "timestamp"), VStr (s "1735689600000"))])]; VDict [((s "text"), VStr (s " ")); ((s "type"), VStr (s "text"))]])]; VDict [((s "type"), VStr (s "paragraph")); ((s "attrs"), VDict [((s "localId"), VStr (s "5c5dcde3-2354-4c4a-b810-0fc5f4832b8b"))]); ((s "content"), VList [VDict [((s "text"), VStr (s "This is a status")); ((s "type"), VStr (s "text"))]])]; VDict [((s "type"), VStr (s "paragraph")); ((s "attrs"), VDict [((s "localId"), VStr (s "84acc655-8b79-4531-b152-724dfb9a36a4"))]); ((s "content"), VList [VDict [((s "type"), VStr (s "status")); ((s "attrs"), VDict [((s "color"), VStr (s "blue")); ((s "style"), VStr (s "bold")); ((s "text"), VStr (s "In Progress")); ((s "localId"), VStr (s "f0f5571b-6e8b-470f-aefa-aa0612aaedcb"))])]; VDict [((s "text"), VStr (s " ")); ((s "type"), VStr (s "text"))]])]; VDict [((s "type"), VStr (s "paragraph")); ((s "attrs"), VDict [((s "localId"), VStr (s "731a09b1-6cd1-4dc5-8163-8c8d26585873"))]); ((s "content"), VList [VDict [((s "text"), VStr (s "This is a devider")); ((s "type"), VStr (s "text"))]])]; VDict [((s "type"), VStr (s "rule")); ((s "attrs"), VDict [((s "localId"), VStr (s "314acc27-cad9-4f99-b14c-0cc7f35cc2b2"))])]; VDict [((s "type"), VStr (s "heading")); ((s "attrs"), VDict [((s "level"), VInt (2)); ((s "localId"), VStr (s "2313df8e-d49a-42e5-bc25-93d87c35b306"))]); ((s "content"), VList [VDict [((s "text"), VStr (s "1.1 Header 2")); ((s "type"), VStr (s "text"))]])]; VDict [((s "type"), VStr (s "heading")); ((s "attrs"), VDict [((s "level"), VInt (3)); ((s "localId"), VStr (s "81c35952-1dd3-4c4c-a654-4c122e2c9ba6"))]); ((s "content"), VList [VDict [((s "text"), VStr (s "1.1.1 Header 3")); ((s "type"), VStr (s "text"))]])]; VDict [((s "type"), VStr (s "paragraph")); ((s "attrs"), VDict [((s "localId"), VStr (s "943877e0-8709-4985-bb00-e6abdfbcd934"))])]]); ((s "version"), VInt (1))].

Example seder_node_doc : seder v_node_doc = true.
Proof. vm_compute. reflexivity. Qed.

Definition v_node_doc_with_unimplemented_model : value := VDict [((s "type"), VStr (s "doc")); ((s "content"), VList [VDict [((s "type"), VStr (s "bodiedExtension")); ((s "attrs"), VDict [((s "layout"), VStr (s "default")); ((s "extensionType"), VStr (s "com.atlassian.confluence.macro.core")); ((s "extensionKey"), VStr (s "details")); ((s "parameters"), VDict [((s "macroParams"), VDict []); ((s "macroMetadata"), VDict [((s "macroId"), VDict [((s "value"), VStr (s "d8186283-5e3d-4961-a80a-6a75211d1973"))]); ((s "schemaVersion"), VDict [((s "value"), VStr (s "1"))]); ((s "title"), VStr (s "Page Properties"))])]); ((s "localId"), VStr (s "ce1e7124-8553-4996-978e-4003fed4bfe4"))]); ((s "content"), VList [VDict [((s "type"), VStr (s "table")); ((s "attrs"), VDict [((s "layout"), VStr (s "default")); ((s "width"), VFloat (FFin (760) (0))); ((s "localId"), VStr (s "c8d3aa68-d60b-4a36-96b4-80ef52074343"))]); ((s "content"), VList [VDict [((s "type"), VStr (s "tableRow")); ((s "attrs"), VDict [((s "localId"), VStr (s "d94196e4-ae40-4c4d-8263-c1267e315b73"))]); ((s "content"), VList [VDict [((s "type"), VStr (s "tableHeader")); ((s "attrs"), VDict [((s "colspan"), VInt (1)); ((s "rowspan"), VInt (1)); ((s "localId"), VStr (s "0f001cef-dd4b-4167-9342-7319a407deb3"))]); ((s "content"), VList [VDict [((s "type"), VStr (s "paragraph")); ((s "attrs"), VDict [((s "localId"), VStr (s "3590d6ee-8f18-4231-ab6e-40a2a89e921d"))]); ((s "content"), VList [VDict [((s "text"), VStr (s "owner")); ((s "type"), VStr (s "text"))]])]])]; VDict [((s "type"), VStr (s "tableCell")); ((s "attrs"), VDict [((s "colspan"), VInt (1)); ((s "background"), VStr (s "#ffffff")); ((s "rowspan"), VInt (1)); ((s "localId"), VStr (s "d7772d36-024e-46c7-a662-2c7c4c39152a"))]); ((s "content"), VList [VDict [((s "type"), VStr (s "paragraph")); ((s "attrs"), VDict [((s "localId"), VStr (s "e0a0fa86-d464-4327-a205-b11ad4926d57"))]); ((s "content"), VList [VDict [((s "text"), VStr (s "alice")); ((s "type"), VStr (s "text"))]])]])]])]; VDict [((s "type"), VStr (s "tableRow")); ((s "attrs"), VDict [((s "localId"), VStr (s "f10e3d46-f2c5-4e01-a3ab-67e5f78028a4"))]); ((s "content"), VList [VDict [((s "type"), VStr (s "tableHeader")); ((s "attrs"), VDict [((s "colspan"), VInt (1)); ((s "background"), VStr (s "#f4f5f7")); ((s "rowspan"), VInt (1)); ((s "localId"), VStr (s "a539f926-503c-4f4f-93ef-f994301cca22"))]); ((s "content"), VList [VDict [((s "type"), VStr (s "paragraph")); ((s "attrs"), VDict [((s "localId"), VStr (s "e96ddaae-077e-4cd3-a5f0-0717c9cc7e5a"))]); ((s "content"), VList [VDict [((s "text"), VStr (s "email")); ((s "type"), VStr (s "text")); ((s "marks"), VList [VDict [((s "type"), VStr (s "strong"))]])]])]])]; VDict [((s "type"), VStr (s "tableCell")); ((s "attrs"), VDict [((s "colspan"), VInt (1)); ((s "rowspan"), VInt (1)); ((s "localId"), VStr (s "365ce9ce-ccb6-4179-a20a-feb5f08e374e"))]); ((s "content"), VList [VDict [((s "type"), VStr (s "paragraph")); ((s "attrs"), VDict [((s "localId"), VStr (s "85afd6e5-b871-4816-9614-05a5a48c2cbc"))]); ((s "content"), VList [VDict [((s "text"), VStr (s "alice@example.com")); ((s "type"), VStr (s "text"))]])]])]])]])]])]; VDict [((s "type"), VStr (s "paragraph")); ((s "attrs"), VDict [((s "localId"), VStr (s "17abab3e-0753-4aea-9374-5a2014dfa1e5"))]); ((s "content"), VList [VDict [((s "text"), VStr (s "Hello World")); ((s "type"), VStr (s "text"))]])]]); ((s "version"), VInt (1))].

Example seder_node_doc_with_unimplemented_model : seder v_node_doc_with_unimplemented_model = true.
Proof. vm_compute. reflexivity. Qed.

Example md_node_doc_with_unimplemented_model : renders v_node_doc_with_unimplemented_model (s "Hello World") = true.
Proof. vm_compute. reflexivity. Qed.
