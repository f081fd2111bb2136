(** GENERATED by tools/gen_code_ast.py from the text of /repo/atlas_doc_parser: the functions and methods that render Markdown,
    the classes, enum members and registries they use, as PySyntax.v terms.  Docstrings, annotations and comments are left out.
    Functions of these modules that are not here: mark_or_node.Base.get_fields, mark_or_node.Base.to_dict, mark_or_node.Base.to_kwargs, mark_or_node.Base.from_dict, mark_or_node.Base.is_opt, mark_or_node.BaseMark.from_dict, mark_or_node.BaseMark.to_dict, mark_or_node.BaseNode.from_dict, mark_or_node.BaseNode.to_dict. *)
From Coq Require Import List NArith ZArith Bool String.
From Verif Require Import PyStr Values PySyntax.
Import ListNotations.
Open Scope string_scope.
Open Scope list_scope.
Open Scope Z_scope.

(** markdown_helpers.py:28-55 *)
Definition f_strip_double_empty_line : func :=
  Func [("text", None); ("n", Some (VInt 3))]
    ["_"]
    [For "_" (Call (Glob "builtins.range") [(Name "n")] []) [Assign "text" (Call (Attr (Name "text") "replace") [(Const (VStr [10%N; 10%N; 10%N])); (Const (VStr [10%N; 10%N]))] [])];
    Return (Name "text")].

(** markdown_helpers.py:58-101 *)
Definition f_content_to_markdown : func :=
  Func [("content", None); ("concat", Some (VStr [])); ("ignore_error", Some (VBool false))]
    ["lst"; "node"; "md"; "e"]
    [If (Cmp CIs (Name "content") (Glob "func_args.api.OPT")) [Return (Const (VStr []))] [Assign "lst" (Call (Glob "builtins.list") [] []);
       For "node" (Name "content") [Try [Assign "md" (Call (Attr (Name "node") "to_markdown") [] []);
             Expr (Call (Attr (Name "lst") "append") [(Name "md")] [])] [("builtins.Exception", Some "e", [If (Name "ignore_error") [Pass] [Raise (Name "e")]])]];
       Return (Call (Attr (Name "concat") "join") [(Name "lst")] [])]].

(** markdown_helpers.py:104-163 *)
Definition f_doc_content_to_markdown : func :=
  Func [("content", None); ("concat", Some (VStr [10%N])); ("ignore_error", Some (VBool false))]
    ["lst"; "node"; "md"; "e"]
    [If (Cmp CIs (Name "content") (Glob "func_args.api.OPT")) [Return (Const (VStr []))] [Assign "lst" (Call (Glob "builtins.list") [] []);
       For "node" (Name "content") [Try [If (Call (Attr (Name "node") "is_type_of") [(ListOf [(Attr (Glob "type_enum.TypeEnum") "bulletList"); (Attr (Glob "type_enum.TypeEnum") "orderedList"); (Attr (Glob "type_enum.TypeEnum") "codeBlock")])] []) [Assign "md" (Bin Add (Bin Add (Const (VStr [10%N])) (Call (Attr (Name "node") "to_markdown") [] [])) (Const (VStr [10%N])))] [Assign "md" (Call (Attr (Name "node") "to_markdown") [] [])];
             Expr (Call (Attr (Name "lst") "append") [(Name "md")] [])] [("builtins.Exception", Some "e", [If (Name "ignore_error") [Pass] [Raise (Name "e")]])]]];
    Assign "md" (Call (Glob "markdown_helpers.strip_double_empty_line") [(Call (Attr (Name "concat") "join") [(Name "lst")] [])] []);
    Return (Name "md")].

(** markdown_helpers.py:166-200 *)
Definition f_add_style_to_markdown : func :=
  Func [("md", None); ("node", None)]
    ["mark"]
    [Try [If (Call (Glob "builtins.isinstance") [(Attr (Name "node") "marks"); (Glob "builtins.list")] []) [For "mark" (Attr (Name "node") "marks") [Assign "md" (Call (Attr (Name "mark") "to_markdown") [(Name "md")] [])]] []] [("builtins.AttributeError", None, [Pass])];
    Return (Name "md")].

(** type_enum.py:159-188 *)
Definition f_check_type_match : func :=
  Func [("type_value", None); ("expected_types", None)]
    ["expected_values"]
    [If (Not (Call (Glob "builtins.isinstance") [(Name "expected_types"); (Glob "builtins.list")] [])) [Assign "expected_types" (ListOf [(Name "expected_types")])] [];
    Assign "expected_values" (ListComp (Attr (Name "t") "value") "t" (Name "expected_types"));
    Return (Cmp CIn (Name "type_value") (Name "expected_values"))].

(** mark_or_node.py:105-125 *)
Definition m_BaseMarkOrNode_is_type_of : func :=
  Func [("self", None); ("expected_types", None)]
    []
    [Return (Call (Glob "type_enum.check_type_match") [(Attr (Name "self") "type"); (Name "expected_types")] [])].

(** mark_or_node.py:170-196 *)
Definition m_BaseMark_to_markdown : func :=
  Func [("self", None); ("text", None)]
    []
    [Return (Name "text")].

(** mark_or_node.py:306-339 *)
Definition m_BaseNode_to_markdown : func :=
  Func [("self", None); ("ignore_error", Some (VBool false))]
    []
    [Raise (Call (Glob "builtins.NotImplementedError") [(FString [(Attr (Attr (Name "self") "__class__") "__name__"); (Const (VStr (s " has not implemented ``to_markdown()``")))])] [])].

(** nodes/node_block_card.py:95-102 *)
Definition m_NodeBlockCard_to_markdown : func :=
  Func [("self", None); ("ignore_error", Some (VBool false))]
    []
    [If (Call (Glob "builtins.isinstance") [(Attr (Attr (Name "self") "attrs") "url"); (Glob "builtins.str")] []) [Return (FString [(Const (VStr [10%N; 91%N])); (Attr (Attr (Name "self") "attrs") "url"); (Const (VStr (s "]("))); (Attr (Attr (Name "self") "attrs") "url"); (Const (VStr [41%N; 10%N]))])] [Raise (Glob "builtins.NotImplementedError")]].

(** nodes/node_blockquote.py:60-76 *)
Definition m_NodeBlockquote_to_markdown : func :=
  Func [("self", None); ("ignore_error", Some (VBool false))]
    []
    [Return (Bin Add (Call (Attr (Glob "textwrap") "indent") [(Call (Glob "markdown_helpers.strip_double_empty_line") [(Call (Glob "markdown_helpers.doc_content_to_markdown") [] [("content", (Attr (Name "self") "content")); ("ignore_error", (Name "ignore_error"))])] [])] [("prefix", (Const (VStr (s "> ")))); ("predicate", (Lambda ["line"] (Const (VBool true))))]) (Const (VStr [10%N])))].

(** nodes/node_bullet_list.py:29-110 *)
Definition m_NodeBulletList_to_markdown : func :=
  Func [("self", None); ("level", Some (VInt 0)); ("ignore_error", Some (VBool false))]
    ["lines"; "indent"; "item"; "content_lines"; "node"; "md"; "e"; "item_content"; "bullet_content"; "first_line"; "remaining_lines"]
    [Assign "lines" (ListOf []);
    Assign "indent" (Bin Mult (Const (VStr (s "    "))) (Name "level"));
    For "item" (Attr (Name "self") "content") [If (Call (Attr (Name "item") "is_type_of") [(Attr (Glob "type_enum.TypeEnum") "listItem")] []) [Assign "content_lines" (ListOf []);
          For "node" (Attr (Name "item") "content") [If (Call (Attr (Name "node") "is_type_of") [(Attr (Glob "type_enum.TypeEnum") "bulletList")] []) [Try [Assign "md" (Call (Attr (Name "node") "to_markdown") [] [("level", (Bin Add (Name "level") (Const (VInt 1))))]);
                   Expr (Call (Attr (Name "content_lines") "append") [(Name "md")] [])] [("builtins.Exception", Some "e", [If (Name "ignore_error") [Pass] [Raise (Name "e")]])]] [Try [Assign "md" (Call (Attr (Call (Attr (Name "node") "to_markdown") [] []) "rstrip") [] []);
                   Expr (Call (Attr (Name "content_lines") "append") [(Name "md")] [])] [("builtins.Exception", Some "e", [If (Name "ignore_error") [Pass] [Raise (Name "e")]])]]];
          Assign "item_content" (Call (Attr (Const (VStr [10%N])) "join") [(Name "content_lines")] []);
          Assign "bullet_content" (Subscript (Call (Attr (Name "item_content") "split") [(Const (VStr [10%N]))] []) (Const (VInt 0)));
          Assign "first_line" (FString [(Name "indent"); (Const (VStr (s "- "))); (Name "bullet_content")]);
          Expr (Call (Attr (Name "lines") "append") [(Name "first_line")] []);
          Assign "remaining_lines" (SliceFrom (Call (Attr (Name "item_content") "split") [(Const (VStr [10%N]))] []) (Const (VInt 1)));
          If (Name "remaining_lines") [Expr (Call (Attr (Name "lines") "extend") [(Name "remaining_lines")] [])] []] []];
    Return (Call (Attr (Const (VStr [10%N])) "join") [(Name "lines")] [])].

(** nodes/node_caption.py:58-62 *)
Definition m_NodeCaption_to_markdown : func :=
  Func [("self", None); ("ignore_error", Some (VBool false))]
    []
    [Return (Const (VStr []))].

(** nodes/node_code_block.py:54-71 *)
Definition m_NodeCodeBlock_to_markdown : func :=
  Func [("self", None); ("ignore_error", Some (VBool false))]
    ["code"; "lang"]
    [Assign "code" (Call (Glob "markdown_helpers.content_to_markdown") [] [("content", (Attr (Name "self") "content")); ("ignore_error", (Name "ignore_error"))]);
    Assign "lang" (Const (VStr []));
    If (Cmp CIsNot (Attr (Name "self") "attrs") (Glob "func_args.api.OPT")) [If (Call (Glob "builtins.isinstance") [(Attr (Attr (Name "self") "attrs") "language"); (Glob "builtins.str")] []) [Assign "lang" (Call (Attr (Glob "markdown_helpers.ATLASSIAN_LANG_TO_MARKDOWN_LANG_MAPPING") "get") [(Attr (Attr (Name "self") "attrs") "language"); (Attr (Attr (Name "self") "attrs") "language")] [])] []] [];
    If (Cmp CEq (Name "lang") (Const (VStr (s "none")))) [Assign "lang" (Const (VStr []))] [];
    Return (FString [(Const (VStr (s "```"))); (Name "lang"); (Const (VStr [10%N])); (Name "code"); (Const (VStr [10%N; 96%N; 96%N; 96%N]))])].

(** nodes/node_date.py:43-48 *)
Definition m_NodeDate_to_markdown : func :=
  Func [("self", None); ("ignore_error", Some (VBool false))]
    ["sec"]
    [Assign "sec" (Bin Div (Call (Glob "builtins.int") [(Attr (Attr (Name "self") "attrs") "timestamp")] []) (Const (VInt 1000)));
    Return (Call (Glob "builtins.str") [(Call (Attr (Call (Attr (Glob "datetime.datetime") "fromtimestamp") [(Name "sec")] [("tz", (Attr (Glob "datetime.timezone") "utc"))]) "date") [] [])] [])].

(** nodes/node_decision_item.py:64-109 *)
Definition m_NodeDecisionItem_to_markdown : func :=
  Func [("self", None); ("ignore_error", Some (VBool false))]
    ["item_content"; "raw_lines"; "prefixed_lines"; "line_count"; "prev_was_empty"; "line"; "is_empty"]
    [Assign "item_content" (Call (Attr (Call (Glob "markdown_helpers.content_to_markdown") [] [("content", (Attr (Name "self") "content")); ("ignore_error", (Name "ignore_error"))]) "rstrip") [] []);
    Assign "raw_lines" (Call (Attr (Name "item_content") "split") [(Const (VStr [10%N]))] []);
    Assign "prefixed_lines" (ListOf []);
    Assign "line_count" (Const (VInt 0));
    Assign "prev_was_empty" (Const (VBool false));
    For "line" (Name "raw_lines") [Assign "line" (Call (Attr (Name "line") "rstrip") [] []);
       Assign "is_empty" (Not (Name "line"));
       If (Name "is_empty") [If (Or (Cmp CLtE (Name "line_count") (Const (VInt 1))) (Name "prev_was_empty")) [Continue] [];
          Expr (Call (Attr (Name "prefixed_lines") "append") [(Const (VStr (s ">")))] []);
          Assign "prev_was_empty" (Const (VBool true))] [Expr (Call (Attr (Name "prefixed_lines") "append") [(FString [(Const (VStr (s "> "))); (Name "line")])] []);
          AugAssign "line_count" Add (Const (VInt 1));
          Assign "prev_was_empty" (Const (VBool false))]];
    Return (Call (Attr (Const (VStr [10%N])) "join") [(Name "prefixed_lines")] [])].

(** nodes/node_decision_list.py:39-63 *)
Definition m_NodeDecisionList_to_markdown : func :=
  Func [("self", None); ("ignore_error", Some (VBool false))]
    ["decision_blocks"; "item"; "md"; "e"]
    [Assign "decision_blocks" (ListOf []);
    For "item" (Attr (Name "self") "content") [If (Call (Attr (Name "item") "is_type_of") [(Attr (Glob "type_enum.TypeEnum") "decisionItem")] []) [Try [Assign "md" (Call (Attr (Name "item") "to_markdown") [] [("ignore_error", (Name "ignore_error"))]);
             Expr (Call (Attr (Name "decision_blocks") "append") [(Name "md")] [])] [("builtins.Exception", Some "e", [If (Name "ignore_error") [Pass] [Raise (Name "e")]])]] []];
    Return (Call (Attr (Const (VStr [10%N; 10%N])) "join") [(Name "decision_blocks")] [])].

(** nodes/node_doc.py:81-91 *)
Definition m_NodeDoc_to_markdown : func :=
  Func [("self", None); ("ignore_error", Some (VBool false))]
    []
    [Return (Call (Glob "markdown_helpers.doc_content_to_markdown") [(Attr (Name "self") "content")] [("ignore_error", (Name "ignore_error"))])].

(** nodes/node_embed_card.py:59-63 *)
Definition m_NodeEmbedCard_to_markdown : func :=
  Func [("self", None); ("ignore_error", Some (VBool false))]
    []
    [Return (FString [(Const (VStr [10%N; 91%N])); (Attr (Attr (Name "self") "attrs") "url"); (Const (VStr (s "]("))); (Attr (Attr (Name "self") "attrs") "url"); (Const (VStr [41%N; 10%N]))])].

(** nodes/node_emoji.py:50-60 *)
Definition m_NodeEmoji_to_markdown : func :=
  Func [("self", None); ("ignore_error", Some (VBool false))]
    []
    [If (Call (Glob "builtins.isinstance") [(Attr (Attr (Name "self") "attrs") "text"); (Glob "builtins.str")] []) [Return (Attr (Attr (Name "self") "attrs") "text")] [If (Call (Glob "builtins.isinstance") [(Attr (Attr (Name "self") "attrs") "shortName"); (Glob "builtins.str")] []) [Return (Attr (Attr (Name "self") "attrs") "shortName")] [Raise (Glob "builtins.NotImplementedError")]]].

(** nodes/node_expand.py:83-95 *)
Definition m_NodeExpand_to_markdown : func :=
  Func [("self", None); ("ignore_error", Some (VBool false))]
    ["md"]
    [Assign "md" (Call (Glob "markdown_helpers.doc_content_to_markdown") [] [("content", (Attr (Name "self") "content")); ("ignore_error", (Name "ignore_error"))]);
    Assign "md" (Call (Glob "markdown_helpers.add_style_to_markdown") [(Name "md"); (Name "self")] []);
    Return (Name "md")].

(** nodes/node_extension.py:62-72 *)
Definition m_NodeExtension_to_markdown : func :=
  Func [("self", None); ("ignore_error", Some (VBool false))]
    ["ext_key"; "ext_type"]
    [Assign "ext_key" (Attr (Attr (Name "self") "attrs") "extensionKey");
    Assign "ext_type" (Attr (Attr (Name "self") "attrs") "extensionType");
    If (And (Call (Glob "builtins.isinstance") [(Attr (Attr (Name "self") "attrs") "text"); (Glob "builtins.str")] []) (Attr (Attr (Name "self") "attrs") "text")) [Return (FString [(Const (VStr (s "[Extension: "))); (Name "ext_key"); (Const (VStr (s "] "))); (Attr (Attr (Name "self") "attrs") "text")])] [];
    Return (FString [(Const (VStr (s "[Extension: "))); (Name "ext_type"); (Const (VStr (s "/"))); (Name "ext_key"); (Const (VStr (s "]")))])].

(** nodes/node_hard_break.py:39-43 *)
Definition m_NodeHardBreak_to_markdown : func :=
  Func [("self", None); ("ignore_error", Some (VBool false))]
    []
    [Return (Const (VStr [32%N; 32%N; 10%N]))].

(** nodes/node_heading.py:77-89 *)
Definition m_NodeHeading_to_markdown : func :=
  Func [("self", None); ("ignore_error", Some (VBool false))]
    ["md"]
    [Assign "md" (Bin Add (Bin Add (Const (VStr [10%N; 10%N])) (Call (Attr (Const (VStr (s "{} {}"))) "format") [(Bin Mult (Const (VStr (s "#"))) (Attr (Attr (Name "self") "attrs") "level")); (Call (Glob "markdown_helpers.content_to_markdown") [] [("content", (Attr (Name "self") "content")); ("ignore_error", (Name "ignore_error"))])] [])) (Const (VStr [10%N; 10%N])));
    Return (Name "md")].

(** nodes/node_inline_card.py:48-55 *)
Definition m_NodeInlineCard_to_markdown : func :=
  Func [("self", None); ("ignore_error", Some (VBool false))]
    []
    [If (Call (Glob "builtins.isinstance") [(Attr (Attr (Name "self") "attrs") "url"); (Glob "builtins.str")] []) [Return (FString [(Const (VStr (s "["))); (Attr (Attr (Name "self") "attrs") "url"); (Const (VStr (s "]("))); (Attr (Attr (Name "self") "attrs") "url"); (Const (VStr (s ")")))])] [Raise (Glob "builtins.NotImplementedError")]].

(** nodes/node_list_item.py:57-61 *)
Definition m_NodeListItem_to_markdown : func :=
  Func [("self", None); ("ignore_error", Some (VBool false))]
    []
    [Return (Call (Glob "markdown_helpers.content_to_markdown") [] [("content", (Attr (Name "self") "content")); ("ignore_error", (Name "ignore_error"))])].

(** nodes/node_media.py:52-53 *)
Definition m_NodeMediaAttrs_is_file_type : func :=
  Func [("self", None)]
    []
    [Return (Cmp CEq (Attr (Name "self") "type") (Const (VStr (s "file"))))].

(** nodes/node_media.py:55-56 *)
Definition m_NodeMediaAttrs_is_link_type : func :=
  Func [("self", None)]
    []
    [Return (Cmp CEq (Attr (Name "self") "type") (Const (VStr (s "link"))))].

(** nodes/node_media.py:58-59 *)
Definition m_NodeMediaAttrs_is_external_type : func :=
  Func [("self", None)]
    []
    [Return (Cmp CEq (Attr (Name "self") "type") (Const (VStr (s "external"))))].

(** nodes/node_media.py:91-108 *)
Definition m_NodeMedia_to_markdown : func :=
  Func [("self", None); ("ignore_error", Some (VBool false))]
    ["alt"; "md"]
    [If (And (Call (Attr (Attr (Name "self") "attrs") "is_external_type") [] []) (Call (Glob "builtins.isinstance") [(Attr (Attr (Name "self") "attrs") "url"); (Glob "builtins.str")] [])) [Assign "alt" (IfExp (Call (Glob "builtins.isinstance") [(Attr (Attr (Name "self") "attrs") "alt"); (Glob "builtins.str")] []) (Attr (Attr (Name "self") "attrs") "alt") (Const (VStr (s "media"))));
       Assign "md" (FString [(Const (VStr (s "!["))); (Name "alt"); (Const (VStr (s "]("))); (Attr (Attr (Name "self") "attrs") "url"); (Const (VStr (s ")")))]);
       Return (Call (Glob "markdown_helpers.add_style_to_markdown") [(Name "md"); (Name "self")] [])] [If (Call (Attr (Attr (Name "self") "attrs") "is_file_type") [] []) [Assign "alt" (IfExp (Call (Glob "builtins.isinstance") [(Attr (Attr (Name "self") "attrs") "alt"); (Glob "builtins.str")] []) (Attr (Attr (Name "self") "attrs") "alt") (Const (VStr (s "media"))));
          Assign "md" (FString [(Const (VStr (s "!["))); (Name "alt"); (Const (VStr (s "](media:"))); (Attr (Attr (Name "self") "attrs") "id"); (Const (VStr (s ")")))]);
          Return (Call (Glob "markdown_helpers.add_style_to_markdown") [(Name "md"); (Name "self")] [])] [If (Call (Attr (Attr (Name "self") "attrs") "is_link_type") [] []) [Return (Const (VStr (s "[media]")))] [Raise (Call (Glob "builtins.TypeError") [(Const (VStr (s "Invalid media node attributes")))] [])]]]].

(** nodes/node_media_group.py:31-35 *)
Definition m_NodeMediaGroup_to_markdown : func :=
  Func [("self", None); ("ignore_error", Some (VBool false))]
    []
    [Return (Const (VStr []))].

(** nodes/node_media_inline.py:65-69 *)
Definition m_NodeMediaInline_to_markdown : func :=
  Func [("self", None); ("ignore_error", Some (VBool false))]
    []
    [Return (Const (VStr []))].

(** nodes/node_media_single.py:83-87 *)
Definition m_NodeMediaSingle_to_markdown : func :=
  Func [("self", None); ("ignore_error", Some (VBool false))]
    []
    [Return (Call (Glob "markdown_helpers.content_to_markdown") [] [("content", (Attr (Name "self") "content")); ("ignore_error", (Name "ignore_error"))])].

(** nodes/node_mention.py:50-58 *)
Definition m_NodeMention_to_markdown : func :=
  Func [("self", None); ("ignore_error", Some (VBool false))]
    []
    [If (Call (Glob "builtins.isinstance") [(Attr (Attr (Name "self") "attrs") "text"); (Glob "builtins.str")] []) [Return (Attr (Attr (Name "self") "attrs") "text")] [Return (Const (VStr (s "@Unknown")))]].

(** nodes/node_nested_expand.py:80-90 *)
Definition m_NodeNestedExpand_to_markdown : func :=
  Func [("self", None); ("ignore_error", Some (VBool false))]
    ["md"]
    [Assign "md" (Call (Glob "markdown_helpers.doc_content_to_markdown") [] [("content", (Attr (Name "self") "content")); ("ignore_error", (Name "ignore_error"))]);
    Return (Name "md")].

(** nodes/node_ordered_list.py:45-134 *)
Definition m_NodeOrderedList_to_markdown : func :=
  Func [("self", None); ("level", Some (VInt 0)); ("ignore_error", Some (VBool false))]
    ["lines"; "indent"; "current_num"; "item"; "content_lines"; "node"; "md"; "e"; "item_content"; "first_content"; "first_line"; "remaining_lines"]
    [Assign "lines" (ListOf []);
    Assign "indent" (Bin Mult (Const (VStr (s "    "))) (Name "level"));
    If (And (Cmp CEq (Name "level") (Const (VInt 0))) (Call (Glob "builtins.isinstance") [(Attr (Attr (Name "self") "attrs") "order"); (Glob "builtins.int")] [])) [Assign "current_num" (Attr (Attr (Name "self") "attrs") "order")] [Assign "current_num" (Const (VInt 1))];
    For "item" (Attr (Name "self") "content") [If (Call (Attr (Name "item") "is_type_of") [(Attr (Glob "type_enum.TypeEnum") "listItem")] []) [Assign "content_lines" (ListOf []);
          For "node" (Attr (Name "item") "content") [If (Call (Attr (Name "node") "is_type_of") [(Attr (Glob "type_enum.TypeEnum") "orderedList")] []) [Try [Assign "md" (Call (Attr (Name "node") "to_markdown") [] [("level", (Bin Add (Name "level") (Const (VInt 1))))]);
                   Expr (Call (Attr (Name "content_lines") "append") [(Name "md")] [])] [("builtins.Exception", Some "e", [If (Name "ignore_error") [Pass] [Raise (Name "e")]])]] [Try [Assign "md" (Call (Attr (Call (Attr (Name "node") "to_markdown") [] []) "rstrip") [] []);
                   Expr (Call (Attr (Name "content_lines") "append") [(Name "md")] [])] [("builtins.Exception", Some "e", [If (Name "ignore_error") [Pass] [Raise (Name "e")]])]]];
          Assign "item_content" (Call (Attr (Const (VStr [10%N])) "join") [(Name "content_lines")] []);
          Assign "first_content" (Subscript (Call (Attr (Name "item_content") "split") [(Const (VStr [10%N]))] []) (Const (VInt 0)));
          Assign "first_line" (FString [(Name "indent"); (Name "current_num"); (Const (VStr (s ". "))); (Name "first_content")]);
          Expr (Call (Attr (Name "lines") "append") [(Name "first_line")] []);
          Assign "remaining_lines" (SliceFrom (Call (Attr (Name "item_content") "split") [(Const (VStr [10%N]))] []) (Const (VInt 1)));
          If (Name "remaining_lines") [Expr (Call (Attr (Name "lines") "extend") [(Name "remaining_lines")] [])] [];
          AugAssign "current_num" Add (Const (VInt 1))] []];
    Return (Call (Attr (Const (VStr [10%N])) "join") [(Name "lines")] [])].

(** nodes/node_panel.py:99-121 *)
Definition m_NodePanel_to_markdown : func :=
  Func [("self", None); ("ignore_error", Some (VBool false))]
    []
    [Return (Bin Add (Call (Attr (Glob "textwrap") "indent") [(Call (Glob "markdown_helpers.strip_double_empty_line") [(Call (Attr (Const (VStr [10%N])) "join") [(ListOf [(FString [(Const (VStr (s "**"))); (Call (Attr (Attr (Attr (Name "self") "attrs") "panelType") "upper") [] []); (Const (VStr (s "**")))]); (Const (VStr [])); (Call (Glob "markdown_helpers.doc_content_to_markdown") [] [("content", (Attr (Name "self") "content")); ("ignore_error", (Name "ignore_error"))])])] [])] [])] [("prefix", (Const (VStr (s "> ")))); ("predicate", (Lambda ["line"] (Const (VBool true))))]) (Const (VStr [10%N])))].

(** nodes/node_paragraph.py:72-81 *)
Definition m_NodeParagraph_to_markdown : func :=
  Func [("self", None); ("ignore_error", Some (VBool false))]
    ["md"]
    [Assign "md" (Call (Glob "markdown_helpers.content_to_markdown") [] [("content", (Attr (Name "self") "content")); ("ignore_error", (Name "ignore_error"))]);
    Assign "md" (Call (Glob "markdown_helpers.add_style_to_markdown") [(Name "md"); (Name "self")] []);
    Return (Bin Add (Name "md") (Const (VStr [10%N])))].

(** nodes/node_rule.py:38-42 *)
Definition m_NodeRule_to_markdown : func :=
  Func [("self", None); ("ignore_error", Some (VBool false))]
    []
    [Return (Const (VStr [10%N; 10%N; 45%N; 45%N; 45%N; 10%N; 10%N]))].

(** nodes/node_status.py:47-51 *)
Definition m_NodeStatus_to_markdown : func :=
  Func [("self", None); ("ignore_error", Some (VBool false))]
    []
    [Return (FString [(Const (VStr (s "`"))); (Attr (Attr (Name "self") "attrs") "text"); (Const (VStr (s "`")))])].

(** nodes/node_table.py:72-88 *)
Definition m_NodeTable_to_markdown : func :=
  Func [("self", None); ("ignore_error", Some (VBool false))]
    ["lines"; "row"; "md"; "e"]
    [Assign "lines" (Call (Glob "builtins.list") [] []);
    For "row" (Attr (Name "self") "content") [Try [Assign "md" (Call (Attr (Name "row") "to_markdown") [] []);
          Expr (Call (Attr (Name "lines") "append") [(Name "md")] []);
          If (Call (Attr (Subscript (Attr (Name "row") "content") (Const (VInt 0))) "is_type_of") [(Attr (Glob "type_enum.TypeEnum") "tableHeader")] []) [Expr (Call (Attr (Name "lines") "append") [(Bin Add (Bin Add (Const (VStr (s "| "))) (Call (Attr (Const (VStr (s " | "))) "join") [(Bin Mult (ListOf [(Const (VStr (s "---")))]) (Call (Glob "builtins.len") [(Attr (Name "row") "content")] []))] [])) (Const (VStr (s " |"))))] [])] []] [("builtins.Exception", Some "e", [If (Name "ignore_error") [Pass] [Raise (Name "e")]])]];
    Return (Call (Attr (Const (VStr [10%N])) "join") [(Name "lines")] [])].

(** nodes/node_table_cell.py:85-104 *)
Definition m_NodeTableCell_to_markdown : func :=
  Func [("self", None); ("ignore_error", Some (VBool false))]
    ["md"; "lines"; "processed_lines"; "line"; "stripped"; "leading_spaces"]
    [Assign "md" (Call (Glob "markdown_helpers.content_to_markdown") [] [("content", (Attr (Name "self") "content")); ("ignore_error", (Name "ignore_error"))]);
    Assign "md" (Call (Attr (Name "md") "replace") [(Const (VStr (s "|"))); (Const (VStr (s "\|")))] []);
    Assign "lines" (Call (Attr (Name "md") "split") [(Const (VStr [10%N]))] []);
    Assign "processed_lines" (ListOf []);
    For "line" (Name "lines") [Assign "stripped" (Call (Attr (Name "line") "lstrip") [(Const (VStr (s " ")))] []);
       Assign "leading_spaces" (Bin Minus (Call (Glob "builtins.len") [(Name "line")] []) (Call (Glob "builtins.len") [(Name "stripped")] []));
       If (Cmp CGt (Name "leading_spaces") (Const (VInt 0))) [Assign "line" (Bin Add (Bin Mult (Const (VStr (s "&nbsp;"))) (Name "leading_spaces")) (Name "stripped"))] [];
       Expr (Call (Attr (Name "processed_lines") "append") [(Name "line")] [])];
    Return (Call (Attr (Const (VStr (s "<br>"))) "join") [(Name "processed_lines")] [])].

(** nodes/node_table_header.py:84-103 *)
Definition m_NodeTableHeader_to_markdown : func :=
  Func [("self", None); ("ignore_error", Some (VBool false))]
    ["md"; "lines"; "processed_lines"; "line"; "stripped"; "leading_spaces"]
    [Assign "md" (Call (Glob "markdown_helpers.content_to_markdown") [] [("content", (Attr (Name "self") "content")); ("ignore_error", (Name "ignore_error"))]);
    Assign "md" (Call (Attr (Name "md") "replace") [(Const (VStr (s "|"))); (Const (VStr (s "\|")))] []);
    Assign "lines" (Call (Attr (Name "md") "split") [(Const (VStr [10%N]))] []);
    Assign "processed_lines" (ListOf []);
    For "line" (Name "lines") [Assign "stripped" (Call (Attr (Name "line") "lstrip") [(Const (VStr (s " ")))] []);
       Assign "leading_spaces" (Bin Minus (Call (Glob "builtins.len") [(Name "line")] []) (Call (Glob "builtins.len") [(Name "stripped")] []));
       If (Cmp CGt (Name "leading_spaces") (Const (VInt 0))) [Assign "line" (Bin Add (Bin Mult (Const (VStr (s "&nbsp;"))) (Name "leading_spaces")) (Name "stripped"))] [];
       Expr (Call (Attr (Name "processed_lines") "append") [(Name "line")] [])];
    Return (Call (Attr (Const (VStr (s "<br>"))) "join") [(Name "processed_lines")] [])].

(** nodes/node_table_row.py:50-58 *)
Definition m_NodeTableRow_to_markdown : func :=
  Func [("self", None); ("ignore_error", Some (VBool false))]
    ["cells"; "cell"; "md"]
    [Assign "cells" (ListOf []);
    For "cell" (Attr (Name "self") "content") [Assign "md" (Call (Attr (Name "cell") "to_markdown") [] [("ignore_error", (Name "ignore_error"))]);
       Expr (Call (Attr (Name "cells") "append") [(Name "md")] [])];
    Return (Bin Add (Bin Add (Const (VStr (s "| "))) (Call (Attr (Const (VStr (s " | "))) "join") [(Name "cells")] [])) (Const (VStr (s " |"))))].

(** nodes/node_task_item.py:65-69 *)
Definition m_NodeTaskItem_to_markdown : func :=
  Func [("self", None); ("ignore_error", Some (VBool false))]
    []
    [Return (Call (Glob "markdown_helpers.content_to_markdown") [] [("content", (Attr (Name "self") "content")); ("ignore_error", (Name "ignore_error"))])].

(** nodes/node_task_list.py:47-124 *)
Definition m_NodeTaskList_to_markdown : func :=
  Func [("self", None); ("level", Some (VInt 0)); ("ignore_error", Some (VBool false))]
    ["lines"; "indent"; "item"; "content_parts"; "node"; "md"; "e"; "item_content"; "checkbox"; "line"]
    [Assign "lines" (ListOf []);
    Assign "indent" (Bin Mult (Const (VStr (s "    "))) (Name "level"));
    For "item" (Attr (Name "self") "content") [If (Call (Attr (Name "item") "is_type_of") [(Attr (Glob "type_enum.TypeEnum") "taskItem")] []) [Assign "content_parts" (ListOf []);
          For "node" (Attr (Name "item") "content") [Try [Assign "md" (Call (Attr (Name "node") "to_markdown") [] []);
                Expr (Call (Attr (Name "content_parts") "append") [(Name "md")] [])] [("builtins.Exception", Some "e", [If (Name "ignore_error") [Pass] [Raise (Name "e")]])]];
          Assign "item_content" (Call (Attr (Call (Attr (Const (VStr [])) "join") [(Name "content_parts")] []) "rstrip") [] []);
          Assign "checkbox" (IfExp (Cmp CEq (Attr (Attr (Name "item") "attrs") "state") (Const (VStr (s "DONE")))) (Const (VStr (s "[x]"))) (Const (VStr (s "[ ]"))));
          Assign "line" (FString [(Name "indent"); (Const (VStr (s "- "))); (Name "checkbox"); (Const (VStr (s " "))); (Name "item_content")]);
          Expr (Call (Attr (Name "lines") "append") [(Name "line")] [])] [If (Call (Attr (Name "item") "is_type_of") [(Attr (Glob "type_enum.TypeEnum") "taskList")] []) [Try [Assign "md" (Call (Attr (Name "item") "to_markdown") [] [("level", (Bin Add (Name "level") (Const (VInt 1)))); ("ignore_error", (Name "ignore_error"))]);
                Expr (Call (Attr (Name "lines") "append") [(Name "md")] [])] [("builtins.Exception", Some "e", [If (Name "ignore_error") [Pass] [Raise (Name "e")]])]] []]];
    Return (Call (Attr (Const (VStr [10%N])) "join") [(Name "lines")] [])].

(** nodes/node_text.py:52-58 *)
Definition m_NodeText_to_markdown : func :=
  Func [("self", None); ("ignore_error", Some (VBool false))]
    ["md"]
    [Assign "md" (Attr (Name "self") "text");
    Assign "md" (Call (Glob "markdown_helpers.add_style_to_markdown") [] [("md", (Name "md")); ("node", (Name "self"))]);
    Return (Name "md")].

(** marks/mark_code.py:22-33 *)
Definition m_MarkCode_to_markdown : func :=
  Func [("self", None); ("text", None)]
    []
    [If (Cmp CIn (Const (VStr [10%N])) (Name "text")) [Raise (Call (Glob "builtins.ValueError") [(Const (VStr (s "Code mark cannot contain newlines in markdown representation.")))] [])] [];
    If (Call (Attr (Name "text") "strip") [] []) [Return (FString [(Const (VStr (s "`` "))); (Name "text"); (Const (VStr (s " ``")))])] [Return (Name "text")]].

(** marks/mark_em.py:19-26 *)
Definition m_MarkEm_to_markdown : func :=
  Func [("self", None); ("text", None)]
    []
    [If (Call (Attr (Name "text") "strip") [] []) [Return (FString [(Const (VStr (s "*"))); (Name "text"); (Const (VStr (s "*")))])] [Return (Name "text")]].

(** marks/mark_indentation.py:35-39 *)
Definition m_MarkIndentation_to_markdown : func :=
  Func [("self", None); ("text", None)]
    []
    [Return (Bin Mult (Attr (Attr (Name "self") "attrs") "level") (Const (VStr [9%N])))].

(** marks/mark_link.py:44-52 *)
Definition m_MarkLink_to_markdown : func :=
  Func [("self", None); ("text", None)]
    ["title"]
    [If (Call (Glob "builtins.isinstance") [(Attr (Attr (Name "self") "attrs") "title"); (Glob "builtins.str")] []) [Assign "title" (Attr (Attr (Name "self") "attrs") "title")] [Assign "title" (Name "text")];
    Return (FString [(Const (VStr (s "["))); (Name "title"); (Const (VStr (s "]("))); (Attr (Attr (Name "self") "attrs") "href"); (Const (VStr (s ")")))])].

(** marks/mark_strike.py:19-26 *)
Definition m_MarkStrike_to_markdown : func :=
  Func [("self", None); ("text", None)]
    []
    [If (Call (Attr (Name "text") "strip") [] []) [Return (FString [(Const (VStr (s "~~"))); (Name "text"); (Const (VStr (s "~~")))])] [Return (Name "text")]].

(** marks/mark_strong.py:19-26 *)
Definition m_MarkStrong_to_markdown : func :=
  Func [("self", None); ("text", None)]
    []
    [If (Call (Attr (Name "text") "strip") [] []) [Return (FString [(Const (VStr (s "**"))); (Name "text"); (Const (VStr (s "**")))])] [Return (Name "text")]].

Definition repo : program := {|
  p_funs := [("markdown_helpers.strip_double_empty_line", f_strip_double_empty_line);
             ("markdown_helpers.content_to_markdown", f_content_to_markdown);
             ("markdown_helpers.doc_content_to_markdown", f_doc_content_to_markdown);
             ("markdown_helpers.add_style_to_markdown", f_add_style_to_markdown);
             ("type_enum.check_type_match", f_check_type_match)];
  p_classes :=
    [("mark_or_node.Base", Class None []);
     ("mark_or_node.BaseMarkOrNode", Class (Some "mark_or_node.Base") [("is_type_of", m_BaseMarkOrNode_is_type_of)]);
     ("mark_or_node.BaseMark", Class (Some "mark_or_node.BaseMarkOrNode") [("to_markdown", m_BaseMark_to_markdown)]);
     ("mark_or_node.BaseNode", Class (Some "mark_or_node.BaseMarkOrNode") [("to_markdown", m_BaseNode_to_markdown)]);
     ("nodes.node_block_card.NodeBlockCardAttrsDatasourceView", Class (Some "mark_or_node.Base") []);
     ("nodes.node_block_card.NodeBlockCardAttrsDatasource", Class (Some "mark_or_node.Base") []);
     ("nodes.node_block_card.NodeBlockCardAttrs", Class (Some "mark_or_node.Base") []);
     ("nodes.node_block_card.NodeBlockCard", Class (Some "mark_or_node.BaseNode") [("to_markdown", m_NodeBlockCard_to_markdown)]);
     ("nodes.node_blockquote.NodeBlockquoteAttrs", Class (Some "mark_or_node.Base") []);
     ("nodes.node_blockquote.NodeBlockquote", Class (Some "mark_or_node.BaseNode") [("to_markdown", m_NodeBlockquote_to_markdown)]);
     ("nodes.node_bullet_list.NodeBulletList", Class (Some "mark_or_node.BaseNode") [("to_markdown", m_NodeBulletList_to_markdown)]);
     ("nodes.node_caption.NodeCaptionAttrs", Class (Some "mark_or_node.Base") []);
     ("nodes.node_caption.NodeCaption", Class (Some "mark_or_node.BaseNode") [("to_markdown", m_NodeCaption_to_markdown)]);
     ("nodes.node_code_block.NodeCodeBlockAttrs", Class (Some "mark_or_node.Base") []);
     ("nodes.node_code_block.NodeCodeBlock", Class (Some "mark_or_node.BaseNode") [("to_markdown", m_NodeCodeBlock_to_markdown)]);
     ("nodes.node_date.NodeDateAttrs", Class (Some "mark_or_node.Base") []);
     ("nodes.node_date.NodeDate", Class (Some "mark_or_node.BaseNode") [("to_markdown", m_NodeDate_to_markdown)]);
     ("nodes.node_decision_item.NodeDecisionItemAttrs", Class (Some "mark_or_node.Base") []);
     ("nodes.node_decision_item.NodeDecisionItem", Class (Some "mark_or_node.BaseNode") [("to_markdown", m_NodeDecisionItem_to_markdown)]);
     ("nodes.node_decision_list.NodeDecisionListAttrs", Class (Some "mark_or_node.Base") []);
     ("nodes.node_decision_list.NodeDecisionList", Class (Some "mark_or_node.BaseNode") [("to_markdown", m_NodeDecisionList_to_markdown)]);
     ("nodes.node_doc.NodeDoc", Class (Some "mark_or_node.BaseNode") [("to_markdown", m_NodeDoc_to_markdown)]);
     ("nodes.node_embed_card.NodeEmbedCardAttrs", Class (Some "mark_or_node.Base") []);
     ("nodes.node_embed_card.NodeEmbedCard", Class (Some "mark_or_node.BaseNode") [("to_markdown", m_NodeEmbedCard_to_markdown)]);
     ("nodes.node_emoji.NodeEmojiAttrs", Class (Some "mark_or_node.Base") []);
     ("nodes.node_emoji.NodeEmoji", Class (Some "mark_or_node.BaseNode") [("to_markdown", m_NodeEmoji_to_markdown)]);
     ("nodes.node_expand.NodeExpandAttrs", Class (Some "mark_or_node.Base") []);
     ("nodes.node_expand.NodeExpand", Class (Some "mark_or_node.BaseNode") [("to_markdown", m_NodeExpand_to_markdown)]);
     ("nodes.node_extension.NodeExtensionAttrs", Class (Some "mark_or_node.Base") []);
     ("nodes.node_extension.NodeExtension", Class (Some "mark_or_node.BaseNode") [("to_markdown", m_NodeExtension_to_markdown)]);
     ("nodes.node_hard_break.NodeHardBreakAttrs", Class (Some "mark_or_node.Base") []);
     ("nodes.node_hard_break.NodeHardBreak", Class (Some "mark_or_node.BaseNode") [("to_markdown", m_NodeHardBreak_to_markdown)]);
     ("nodes.node_heading.NodeHeadingAttrs", Class (Some "mark_or_node.Base") []);
     ("nodes.node_heading.NodeHeading", Class (Some "mark_or_node.BaseNode") [("to_markdown", m_NodeHeading_to_markdown)]);
     ("nodes.node_inline_card.NodeInlineCardAttrs", Class (Some "mark_or_node.Base") []);
     ("nodes.node_inline_card.NodeInlineCard", Class (Some "mark_or_node.BaseNode") [("to_markdown", m_NodeInlineCard_to_markdown)]);
     ("nodes.node_list_item.NodeListItemAttrs", Class (Some "mark_or_node.Base") []);
     ("nodes.node_list_item.NodeListItem", Class (Some "mark_or_node.BaseNode") [("to_markdown", m_NodeListItem_to_markdown)]);
     ("nodes.node_media.NodeMediaAttrs", Class (Some "mark_or_node.Base") [("is_file_type", m_NodeMediaAttrs_is_file_type); ("is_link_type", m_NodeMediaAttrs_is_link_type); ("is_external_type", m_NodeMediaAttrs_is_external_type)]);
     ("nodes.node_media.NodeMedia", Class (Some "mark_or_node.BaseNode") [("to_markdown", m_NodeMedia_to_markdown)]);
     ("nodes.node_media_group.NodeMediaGroup", Class (Some "mark_or_node.BaseNode") [("to_markdown", m_NodeMediaGroup_to_markdown)]);
     ("nodes.node_media_inline.NodeMediaInlineAttrs", Class (Some "mark_or_node.Base") []);
     ("nodes.node_media_inline.NodeMediaInline", Class (Some "mark_or_node.BaseNode") [("to_markdown", m_NodeMediaInline_to_markdown)]);
     ("nodes.node_media_single.NodeMediaSingleAttrs", Class (Some "mark_or_node.Base") []);
     ("nodes.node_media_single.NodeMediaSingle", Class (Some "mark_or_node.BaseNode") [("to_markdown", m_NodeMediaSingle_to_markdown)]);
     ("nodes.node_mention.NodeMentionAttrs", Class (Some "mark_or_node.Base") []);
     ("nodes.node_mention.NodeMention", Class (Some "mark_or_node.BaseNode") [("to_markdown", m_NodeMention_to_markdown)]);
     ("nodes.node_nested_expand.NodeNestedExpandAttrs", Class (Some "mark_or_node.Base") []);
     ("nodes.node_nested_expand.NodeNestedExpand", Class (Some "mark_or_node.BaseNode") [("to_markdown", m_NodeNestedExpand_to_markdown)]);
     ("nodes.node_ordered_list.NodeOrderedListAttrs", Class (Some "mark_or_node.Base") []);
     ("nodes.node_ordered_list.NodeOrderedList", Class (Some "mark_or_node.BaseNode") [("to_markdown", m_NodeOrderedList_to_markdown)]);
     ("nodes.node_panel.NodePanelAttrs", Class (Some "mark_or_node.Base") []);
     ("nodes.node_panel.NodePanel", Class (Some "mark_or_node.BaseNode") [("to_markdown", m_NodePanel_to_markdown)]);
     ("nodes.node_paragraph.NodeParagraphAttrs", Class (Some "mark_or_node.Base") []);
     ("nodes.node_paragraph.NodeParagraph", Class (Some "mark_or_node.BaseNode") [("to_markdown", m_NodeParagraph_to_markdown)]);
     ("nodes.node_rule.NodeRuleAttrs", Class (Some "mark_or_node.Base") []);
     ("nodes.node_rule.NodeRule", Class (Some "mark_or_node.BaseNode") [("to_markdown", m_NodeRule_to_markdown)]);
     ("nodes.node_status.NodeStatusAttrs", Class (Some "mark_or_node.Base") []);
     ("nodes.node_status.NodeStatus", Class (Some "mark_or_node.BaseNode") [("to_markdown", m_NodeStatus_to_markdown)]);
     ("nodes.node_table.NodeTableAttrs", Class (Some "mark_or_node.Base") []);
     ("nodes.node_table.NodeTable", Class (Some "mark_or_node.BaseNode") [("to_markdown", m_NodeTable_to_markdown)]);
     ("nodes.node_table_cell.NodeTableCellAttrs", Class (Some "mark_or_node.Base") []);
     ("nodes.node_table_cell.NodeTableCell", Class (Some "mark_or_node.BaseNode") [("to_markdown", m_NodeTableCell_to_markdown)]);
     ("nodes.node_table_header.NodeTableHeaderAttrs", Class (Some "mark_or_node.Base") []);
     ("nodes.node_table_header.NodeTableHeader", Class (Some "mark_or_node.BaseNode") [("to_markdown", m_NodeTableHeader_to_markdown)]);
     ("nodes.node_table_row.NodeTableRowAttrs", Class (Some "mark_or_node.Base") []);
     ("nodes.node_table_row.NodeTableRow", Class (Some "mark_or_node.BaseNode") [("to_markdown", m_NodeTableRow_to_markdown)]);
     ("nodes.node_task_item.NodeTaskItemAttrs", Class (Some "mark_or_node.Base") []);
     ("nodes.node_task_item.NodeTaskItem", Class (Some "mark_or_node.BaseNode") [("to_markdown", m_NodeTaskItem_to_markdown)]);
     ("nodes.node_task_list.NodeTaskListAttrs", Class (Some "mark_or_node.Base") []);
     ("nodes.node_task_list.NodeTaskList", Class (Some "mark_or_node.BaseNode") [("to_markdown", m_NodeTaskList_to_markdown)]);
     ("nodes.node_text.NodeText", Class (Some "mark_or_node.BaseNode") [("to_markdown", m_NodeText_to_markdown)]);
     ("marks.mark_alignment.MarkAlignmentAttrs", Class (Some "mark_or_node.Base") []);
     ("marks.mark_alignment.MarkAlignment", Class (Some "mark_or_node.BaseMark") []);
     ("marks.mark_annotation.AnnotationType", Class None []);
     ("marks.mark_annotation.MarkAnnotationAttrs", Class (Some "mark_or_node.Base") []);
     ("marks.mark_annotation.MarkAnnotation", Class (Some "mark_or_node.BaseMark") []);
     ("marks.mark_background_color.MarkBackgroundColorAttrs", Class (Some "mark_or_node.Base") []);
     ("marks.mark_background_color.MarkBackgroundColor", Class (Some "mark_or_node.BaseMark") []);
     ("marks.mark_border.MarkBorderAttrs", Class (Some "mark_or_node.Base") []);
     ("marks.mark_border.MarkBorder", Class (Some "mark_or_node.BaseMark") []);
     ("marks.mark_breakout.MarkBreakoutAttrs", Class (Some "mark_or_node.Base") []);
     ("marks.mark_breakout.MarkBreakout", Class (Some "mark_or_node.BaseMark") []);
     ("marks.mark_code.MarkCode", Class (Some "mark_or_node.BaseMark") [("to_markdown", m_MarkCode_to_markdown)]);
     ("marks.mark_data_consumer.MarkDataConsumerAttrs", Class (Some "mark_or_node.Base") []);
     ("marks.mark_data_consumer.MarkDataConsumer", Class (Some "mark_or_node.BaseMark") []);
     ("marks.mark_em.MarkEm", Class (Some "mark_or_node.BaseMark") [("to_markdown", m_MarkEm_to_markdown)]);
     ("marks.mark_fragment.MarkFragmentAttrs", Class (Some "mark_or_node.Base") []);
     ("marks.mark_fragment.MarkFragment", Class (Some "mark_or_node.BaseMark") []);
     ("marks.mark_indentation.MarkIndentationAttrs", Class (Some "mark_or_node.Base") []);
     ("marks.mark_indentation.MarkIndentation", Class (Some "mark_or_node.BaseMark") [("to_markdown", m_MarkIndentation_to_markdown)]);
     ("marks.mark_link.MarkLinkAttrs", Class (Some "mark_or_node.Base") []);
     ("marks.mark_link.MarkLink", Class (Some "mark_or_node.BaseMark") [("to_markdown", m_MarkLink_to_markdown)]);
     ("marks.mark_strike.MarkStrike", Class (Some "mark_or_node.BaseMark") [("to_markdown", m_MarkStrike_to_markdown)]);
     ("marks.mark_strong.MarkStrong", Class (Some "mark_or_node.BaseMark") [("to_markdown", m_MarkStrong_to_markdown)]);
     ("marks.mark_subsup.MarkSubsupAttrs", Class (Some "mark_or_node.Base") []);
     ("marks.mark_subsup.MarkSubsup", Class (Some "mark_or_node.BaseMark") []);
     ("marks.mark_text_color.MarkTextColorAttrs", Class (Some "mark_or_node.Base") []);
     ("marks.mark_text_color.MarkTextColor", Class (Some "mark_or_node.BaseMark") []);
     ("marks.mark_underline.MarkUnderline", Class (Some "mark_or_node.BaseMark") [])];
  p_consts := [("markdown_helpers.ATLASSIAN_LANG_TO_MARKDOWN_LANG_MAPPING", VDict [])];
  p_enums := [("type_enum.TypeEnum", [("alignment", "alignment"); ("annotation", "annotation"); ("backgroundColor", "backgroundColor"); ("border", "border"); ("breakout", "breakout"); ("code", "code"); ("em", "em"); ("indentation", "indentation"); ("link", "link"); ("strike", "strike"); ("strong", "strong"); ("subsup", "subsup"); ("textColor", "textColor"); ("underline", "underline"); ("blockCard", "blockCard"); ("blockTaskItem", "blockTaskItem"); ("blockquote", "blockquote"); ("bodiedExtension", "bodiedExtension"); ("bodiedSyncBlock", "bodiedSyncBlock"); ("bulletList", "bulletList"); ("caption", "caption"); ("codeBlock", "codeBlock"); ("dataConsumer", "dataConsumer"); ("date", "date"); ("decisionItem", "decisionItem"); ("decisionList", "decisionList"); ("doc", "doc"); ("embedCard", "embedCard"); ("emoji", "emoji"); ("expand", "expand"); ("extension", "extension"); ("external", "external"); ("file", "file"); ("fragment", "fragment"); ("hardBreak", "hardBreak"); ("heading", "heading"); ("image", "image"); ("inlineCard", "inlineCard"); ("inlineExtension", "inlineExtension"); ("layoutColumn", "layoutColumn"); ("layoutSection", "layoutSection"); ("listItem", "listItem"); ("media", "media"); ("mediaGroup", "mediaGroup"); ("mediaInline", "mediaInline"); ("mediaSingle", "mediaSingle"); ("mention", "mention"); ("nestedExpand", "nestedExpand"); ("orderedList", "orderedList"); ("panel", "panel"); ("paragraph", "paragraph"); ("placeholder", "placeholder"); ("rule", "rule"); ("status", "status"); ("sub", "sub"); ("sup", "sup"); ("syncBlock", "syncBlock"); ("table", "table"); ("tableCell", "tableCell"); ("tableHeader", "tableHeader"); ("tableRow", "tableRow"); ("taskItem", "taskItem"); ("taskList", "taskList"); ("text", "text")])];
  p_attrs :=
    [("nodes.node_block_card.NodeBlockCard", "nodes.node_block_card.NodeBlockCardAttrs");
     ("nodes.node_blockquote.NodeBlockquote", "nodes.node_blockquote.NodeBlockquoteAttrs");
     ("nodes.node_caption.NodeCaption", "nodes.node_caption.NodeCaptionAttrs");
     ("nodes.node_code_block.NodeCodeBlock", "nodes.node_code_block.NodeCodeBlockAttrs");
     ("nodes.node_date.NodeDate", "nodes.node_date.NodeDateAttrs");
     ("nodes.node_decision_item.NodeDecisionItem", "nodes.node_decision_item.NodeDecisionItemAttrs");
     ("nodes.node_decision_list.NodeDecisionList", "nodes.node_decision_list.NodeDecisionListAttrs");
     ("nodes.node_embed_card.NodeEmbedCard", "nodes.node_embed_card.NodeEmbedCardAttrs");
     ("nodes.node_emoji.NodeEmoji", "nodes.node_emoji.NodeEmojiAttrs");
     ("nodes.node_expand.NodeExpand", "nodes.node_expand.NodeExpandAttrs");
     ("nodes.node_extension.NodeExtension", "nodes.node_extension.NodeExtensionAttrs");
     ("nodes.node_hard_break.NodeHardBreak", "nodes.node_hard_break.NodeHardBreakAttrs");
     ("nodes.node_heading.NodeHeading", "nodes.node_heading.NodeHeadingAttrs");
     ("nodes.node_inline_card.NodeInlineCard", "nodes.node_inline_card.NodeInlineCardAttrs");
     ("nodes.node_list_item.NodeListItem", "nodes.node_list_item.NodeListItemAttrs");
     ("nodes.node_media.NodeMedia", "nodes.node_media.NodeMediaAttrs");
     ("nodes.node_media_inline.NodeMediaInline", "nodes.node_media_inline.NodeMediaInlineAttrs");
     ("nodes.node_media_single.NodeMediaSingle", "nodes.node_media_single.NodeMediaSingleAttrs");
     ("nodes.node_mention.NodeMention", "nodes.node_mention.NodeMentionAttrs");
     ("nodes.node_nested_expand.NodeNestedExpand", "nodes.node_nested_expand.NodeNestedExpandAttrs");
     ("nodes.node_ordered_list.NodeOrderedList", "nodes.node_ordered_list.NodeOrderedListAttrs");
     ("nodes.node_panel.NodePanel", "nodes.node_panel.NodePanelAttrs");
     ("nodes.node_paragraph.NodeParagraph", "nodes.node_paragraph.NodeParagraphAttrs");
     ("nodes.node_rule.NodeRule", "nodes.node_rule.NodeRuleAttrs");
     ("nodes.node_status.NodeStatus", "nodes.node_status.NodeStatusAttrs");
     ("nodes.node_table.NodeTable", "nodes.node_table.NodeTableAttrs");
     ("nodes.node_table_cell.NodeTableCell", "nodes.node_table_cell.NodeTableCellAttrs");
     ("nodes.node_table_header.NodeTableHeader", "nodes.node_table_header.NodeTableHeaderAttrs");
     ("nodes.node_table_row.NodeTableRow", "nodes.node_table_row.NodeTableRowAttrs");
     ("nodes.node_task_item.NodeTaskItem", "nodes.node_task_item.NodeTaskItemAttrs");
     ("nodes.node_task_list.NodeTaskList", "nodes.node_task_list.NodeTaskListAttrs");
     ("marks.mark_alignment.MarkAlignment", "marks.mark_alignment.MarkAlignmentAttrs");
     ("marks.mark_annotation.MarkAnnotation", "marks.mark_annotation.MarkAnnotationAttrs");
     ("marks.mark_background_color.MarkBackgroundColor", "marks.mark_background_color.MarkBackgroundColorAttrs");
     ("marks.mark_border.MarkBorder", "marks.mark_border.MarkBorderAttrs");
     ("marks.mark_breakout.MarkBreakout", "marks.mark_breakout.MarkBreakoutAttrs");
     ("marks.mark_data_consumer.MarkDataConsumer", "marks.mark_data_consumer.MarkDataConsumerAttrs");
     ("marks.mark_fragment.MarkFragment", "marks.mark_fragment.MarkFragmentAttrs");
     ("marks.mark_indentation.MarkIndentation", "marks.mark_indentation.MarkIndentationAttrs");
     ("marks.mark_link.MarkLink", "marks.mark_link.MarkLinkAttrs");
     ("marks.mark_subsup.MarkSubsup", "marks.mark_subsup.MarkSubsupAttrs");
     ("marks.mark_text_color.MarkTextColor", "marks.mark_text_color.MarkTextColorAttrs")] |}.

(** nodes/parse_node.py, marks/parse_mark.py: the classes by the value of "type". *)
Definition node_registry : list (str * string) :=
  [(s "doc", "nodes.node_doc.NodeDoc");
   (s "text", "nodes.node_text.NodeText");
   (s "rule", "nodes.node_rule.NodeRule");
   (s "listItem", "nodes.node_list_item.NodeListItem");
   (s "bulletList", "nodes.node_bullet_list.NodeBulletList");
   (s "orderedList", "nodes.node_ordered_list.NodeOrderedList");
   (s "paragraph", "nodes.node_paragraph.NodeParagraph");
   (s "taskItem", "nodes.node_task_item.NodeTaskItem");
   (s "taskList", "nodes.node_task_list.NodeTaskList");
   (s "decisionItem", "nodes.node_decision_item.NodeDecisionItem");
   (s "decisionList", "nodes.node_decision_list.NodeDecisionList");
   (s "emoji", "nodes.node_emoji.NodeEmoji");
   (s "hardBreak", "nodes.node_hard_break.NodeHardBreak");
   (s "date", "nodes.node_date.NodeDate");
   (s "mention", "nodes.node_mention.NodeMention");
   (s "status", "nodes.node_status.NodeStatus");
   (s "heading", "nodes.node_heading.NodeHeading");
   (s "codeBlock", "nodes.node_code_block.NodeCodeBlock");
   (s "inlineCard", "nodes.node_inline_card.NodeInlineCard");
   (s "blockCard", "nodes.node_block_card.NodeBlockCard");
   (s "media", "nodes.node_media.NodeMedia");
   (s "mediaGroup", "nodes.node_media_group.NodeMediaGroup");
   (s "mediaSingle", "nodes.node_media_single.NodeMediaSingle");
   (s "embedCard", "nodes.node_embed_card.NodeEmbedCard");
   (s "extension", "nodes.node_extension.NodeExtension");
   (s "caption", "nodes.node_caption.NodeCaption");
   (s "mediaInline", "nodes.node_media_inline.NodeMediaInline");
   (s "panel", "nodes.node_panel.NodePanel");
   (s "blockquote", "nodes.node_blockquote.NodeBlockquote");
   (s "expand", "nodes.node_expand.NodeExpand");
   (s "nestedExpand", "nodes.node_nested_expand.NodeNestedExpand");
   (s "tableCell", "nodes.node_table_cell.NodeTableCell");
   (s "tableHeader", "nodes.node_table_header.NodeTableHeader");
   (s "tableRow", "nodes.node_table_row.NodeTableRow");
   (s "table", "nodes.node_table.NodeTable")].
Definition mark_registry : list (str * string) :=
  [(s "backgroundColor", "marks.mark_background_color.MarkBackgroundColor");
   (s "code", "marks.mark_code.MarkCode");
   (s "em", "marks.mark_em.MarkEm");
   (s "link", "marks.mark_link.MarkLink");
   (s "strike", "marks.mark_strike.MarkStrike");
   (s "strong", "marks.mark_strong.MarkStrong");
   (s "subsup", "marks.mark_subsup.MarkSubsup");
   (s "textColor", "marks.mark_text_color.MarkTextColor");
   (s "underline", "marks.mark_underline.MarkUnderline");
   (s "annotation", "marks.mark_annotation.MarkAnnotation");
   (s "indentation", "marks.mark_indentation.MarkIndentation");
   (s "border", "marks.mark_border.MarkBorder");
   (s "alignment", "marks.mark_alignment.MarkAlignment");
   (s "breakout", "marks.mark_breakout.MarkBreakout");
   (s "dataConsumer", "marks.mark_data_consumer.MarkDataConsumer");
   (s "fragment", "marks.mark_fragment.MarkFragment")].
