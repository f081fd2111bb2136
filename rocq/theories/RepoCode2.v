(** GENERATED by tools/gen_code_ast.py from the text of /repo/atlas_doc_parser: the functions that read and write ADF dictionaries,
    and every dataclass with its base, these methods (true: a classmethod) and the fields it declares (default, class annotated). *)
From Coq Require Import List NArith ZArith Bool String.
From Verif Require Import PyStr Values PySyntax RepoCode.
Import ListNotations.
Open Scope string_scope.
Open Scope list_scope.
Open Scope Z_scope.

(** mark_or_node.py:43-53 *)
Definition m_Base_get_fields : func :=
  Func [("cls", None)]
    []
    [Try [Return (Subscript (Glob "mark_or_node._CLASS_FIELD") (Name "cls"))] [("builtins.KeyError", None, [SetGlob "mark_or_node._CLASS_FIELD" (Name "cls") (DictComp (Attr (Name "field") "name") (Name "field") "field" (Call (Attr (Glob "dataclasses") "fields") [(Name "cls")] []));
         Return (Subscript (Glob "mark_or_node._CLASS_FIELD") (Name "cls"))])]].

(** mark_or_node.py:55-59 *)
Definition m_Base_to_dict : func :=
  Func [("self", None)]
    []
    [Return (CallKw (Glob "func_args.api.remove_optional") (Call (Attr (Glob "dataclasses") "asdict") [(Name "self")] []))].

(** mark_or_node.py:61-65 *)
Definition m_Base_to_kwargs : func :=
  Func [("self", None)]
    []
    [Return (Call (Attr (Name "self") "to_dict") [] [])].

(** mark_or_node.py:68-88 *)
Definition m_Base_from_dict : func :=
  Func [("cls", None); ("dct", None)]
    ["_fields"; "kwargs"; "field_name"; "field"]
    [Assign "_fields" (Call (Attr (Name "cls") "get_fields") [] []);
    Assign "kwargs" EmptyDict;
    For2 "field_name" "field" (Call (Attr (Name "_fields") "items") [] []) [Try [SetItem "kwargs" (Name "field_name") (Subscript (Name "dct") (Name "field_name"))] [("builtins.KeyError", None, [Pass])]];
    Return (CallKw (Name "cls") (Name "kwargs"))].

(** mark_or_node.py:90-91 *)
Definition m_Base_is_opt : func :=
  Func [("self", None); ("value", None)]
    []
    [Return (Cmp CIs (Name "value") (Glob "func_args.api.OPT"))].

(** mark_or_node.py:146-161 *)
Definition m_BaseMark_from_dict : func :=
  Func [("cls", None); ("dct", None)]
    ["fields"; "attrs_field"]
    [Assign "dct" (Call (Attr (Glob "copy") "deepcopy") [(Name "dct")] []);
    If (Cmp CIn (Const (VStr (s "attrs"))) (Name "dct")) [Assign "fields" (Call (Attr (Name "cls") "get_fields") [] []);
       If (Cmp CIn (Const (VStr (s "attrs"))) (Name "fields")) [Assign "attrs_field" (Subscript (Name "fields") (Const (VStr (s "attrs"))));
          If (Call (Glob "builtins.hasattr") [(Attr (Name "attrs_field") "type"); (Const (VStr (s "from_dict")))] []) [SetItem "dct" (Const (VStr (s "attrs"))) (Call (Attr (Attr (Name "attrs_field") "type") "from_dict") [(Subscript (Name "dct") (Const (VStr (s "attrs"))))] [])] []] []] [];
    Return (Call (Attr (SuperOf "mark_or_node.BaseMark" "cls") "from_dict") [(Name "dct")] [])].

(** mark_or_node.py:163-168 *)
Definition m_BaseMark_to_dict : func :=
  Func [("self", None)]
    ["data"]
    [Assign "data" (Call (Attr (SuperOf "mark_or_node.BaseMark" "self") "to_dict") [] []);
    If (And (Cmp CIn (Const (VStr (s "attrs"))) (Name "data")) (Call (Glob "builtins.hasattr") [(Subscript (Name "data") (Const (VStr (s "attrs")))); (Const (VStr (s "to_dict")))] [])) [SetItem "data" (Const (VStr (s "attrs"))) (CallKw (Glob "func_args.api.remove_optional") (Subscript (Name "data") (Const (VStr (s "attrs")))))] [];
    Return (Name "data")].

(** mark_or_node.py:223-284 *)
Definition m_BaseNode_from_dict : func :=
  Func [("cls", None); ("dct", None)]
    ["parse_mark"; "parse_node"; "fields"; "attrs_field"; "new_content"; "d"; "content"; "e"; "new_marks"; "mark"]
    [Assign "parse_mark" (Glob "marks.parse_mark.parse_mark");
    Assign "parse_node" (Glob "nodes.parse_node.parse_node");
    Assign "dct" (Call (Attr (Glob "copy") "deepcopy") [(Name "dct")] []);
    If (Cmp CIn (Const (VStr (s "attrs"))) (Name "dct")) [Assign "fields" (Call (Attr (Name "cls") "get_fields") [] []);
       If (Cmp CIn (Const (VStr (s "attrs"))) (Name "fields")) [Assign "attrs_field" (Subscript (Name "fields") (Const (VStr (s "attrs"))));
          If (Call (Glob "builtins.hasattr") [(Attr (Name "attrs_field") "type"); (Const (VStr (s "from_dict")))] []) [SetItem "dct" (Const (VStr (s "attrs"))) (Call (Attr (Attr (Name "attrs_field") "type") "from_dict") [(Subscript (Name "dct") (Const (VStr (s "attrs"))))] [])] []] []] [];
    If (Cmp CIn (Const (VStr (s "content"))) (Name "dct")) [If (And (Call (Glob "builtins.isinstance") [(Subscript (Name "dct") (Const (VStr (s "content")))); (Glob "builtins.list")] []) (Cmp CIsNot (Name "parse_node") (Const VNone))) [Assign "new_content" (ListOf []);
          For "d" (Subscript (Name "dct") (Const (VStr (s "content")))) [Try [Assign "content" (Call (Name "parse_node") [(Name "d")] []);
                Expr (Call (Attr (Name "new_content") "append") [(Name "content")] [])] [("exc.UnimplementedTypeError", Some "e", [If (Attr (Glob "settings") "WARN_UNIMPLEMENTED_TYPE") [Expr (Call (Attr (Glob "logger.logger") "warning") [(Call (Glob "builtins.str") [(Name "e")] [])] [])] []])]];
          SetItem "dct" (Const (VStr (s "content"))) (Name "new_content")] []] [];
    If (Cmp CIn (Const (VStr (s "marks"))) (Name "dct")) [If (And (Call (Glob "builtins.isinstance") [(Subscript (Name "dct") (Const (VStr (s "marks")))); (Glob "builtins.list")] []) (Cmp CIsNot (Name "parse_mark") (Const VNone))) [Assign "new_marks" (ListOf []);
          For "d" (Subscript (Name "dct") (Const (VStr (s "marks")))) [Try [Assign "mark" (Call (Name "parse_mark") [(Name "d")] []);
                Expr (Call (Attr (Name "new_marks") "append") [(Name "mark")] [])] [("exc.UnimplementedTypeError", Some "e", [If (Attr (Glob "settings") "WARN_UNIMPLEMENTED_TYPE") [Expr (Call (Attr (Glob "logger.logger") "warning") [(Call (Glob "builtins.str") [(Name "e")] [])] [])] []])]];
          SetItem "dct" (Const (VStr (s "marks"))) (Name "new_marks")] []] [];
    Return (Call (Attr (SuperOf "mark_or_node.BaseNode" "cls") "from_dict") [(Name "dct")] [])].

(** mark_or_node.py:286-304 *)
Definition m_BaseNode_to_dict : func :=
  Func [("self", None)]
    ["data"]
    [Assign "data" (Call (Attr (Glob "dataclasses") "asdict") [(Name "self")] []);
    If (And (Cmp CIn (Const (VStr (s "attrs"))) (Name "data")) (Cmp CIsNot (Subscript (Name "data") (Const (VStr (s "attrs")))) (Glob "func_args.api.OPT"))) [If (Call (Glob "builtins.hasattr") [(Attr (Name "self") "attrs"); (Const (VStr (s "to_dict")))] []) [SetItem "data" (Const (VStr (s "attrs"))) (Call (Attr (Attr (Name "self") "attrs") "to_dict") [] [])] []] [];
    If (And (Cmp CIn (Const (VStr (s "content"))) (Name "data")) (Cmp CIsNot (Subscript (Name "data") (Const (VStr (s "content")))) (Glob "func_args.api.OPT"))) [SetItem "data" (Const (VStr (s "content"))) (ListComp (Call (Attr (Name "c") "to_dict") [] []) "c" (Attr (Name "self") "content"))] [];
    If (And (Cmp CIn (Const (VStr (s "marks"))) (Name "data")) (Cmp CIsNot (Subscript (Name "data") (Const (VStr (s "marks")))) (Glob "func_args.api.OPT"))) [SetItem "data" (Const (VStr (s "marks"))) (ListComp (Call (Attr (Name "m") "to_dict") [] []) "m" (Attr (Name "self") "marks"))] [];
    Return (CallKw (Glob "func_args.api.remove_optional") (Name "data"))].

(** nodes/parse_node.py:100-113 *)
Definition f_parse_node : func :=
  Func [("dct", None)]
    ["type_"; "klass"]
    [Assign "type_" (Subscript (Name "dct") (Const (VStr (s "type"))));
    Try [Assign "klass" (Subscript (Glob "nodes.parse_node.NODE_TYPE_TO_CLASS_MAPPING") (Name "type_"))] [("builtins.KeyError", None, [Raise (Call (Glob "exc.UnimplementedTypeError") [(Name "type_"); (Const (VStr (s "node")))] [])])];
    Return (Call (Attr (Name "klass") "from_dict") [(Name "dct")] [])].

(** marks/parse_mark.py:62-75 *)
Definition f_parse_mark : func :=
  Func [("dct", None)]
    ["type_"; "klass"]
    [Assign "type_" (Subscript (Name "dct") (Const (VStr (s "type"))));
    Try [Assign "klass" (Subscript (Glob "marks.parse_mark.MARK_TYPE_TO_CLASS_MAPPING") (Name "type_"))] [("builtins.KeyError", None, [Raise (Call (Glob "exc.UnimplementedTypeError") [(Name "type_"); (Const (VStr (s "mark")))] [])])];
    Return (Call (Attr (Name "klass") "from_dict") [(Name "dct")] [])].

Definition repo2 : program2 := {|
  q_funs := [("nodes.parse_node.parse_node", f_parse_node);
             ("marks.parse_mark.parse_mark", f_parse_mark)];
  q_dicts := [("nodes.parse_node.NODE_TYPE_TO_CLASS_MAPPING", node_registry); ("marks.parse_mark.MARK_TYPE_TO_CLASS_MAPPING", mark_registry)];
  q_caches := ["mark_or_node._CLASS_FIELD"];
  q_classes :=
    [("mark_or_node.Base", DClass None [("get_fields", (true, m_Base_get_fields)); ("to_dict", (false, m_Base_to_dict)); ("to_kwargs", (false, m_Base_to_kwargs)); ("from_dict", (true, m_Base_from_dict)); ("is_opt", (false, m_Base_is_opt))]
        []);
     ("mark_or_node.BaseMarkOrNode", DClass (Some "mark_or_node.Base") []
        [(s "type", (DReq, None))]);
     ("mark_or_node.BaseMark", DClass (Some "mark_or_node.BaseMarkOrNode") [("from_dict", (true, m_BaseMark_from_dict)); ("to_dict", (false, m_BaseMark_to_dict))]
        []);
     ("mark_or_node.BaseNode", DClass (Some "mark_or_node.BaseMarkOrNode") [("from_dict", (true, m_BaseNode_from_dict)); ("to_dict", (false, m_BaseNode_to_dict))]
        []);
     ("nodes.node_block_card.NodeBlockCardAttrsDatasourceView", DClass (Some "mark_or_node.Base") []
        [(s "type", (DOpt, None)); (s "properties", (DOpt, None))]);
     ("nodes.node_block_card.NodeBlockCardAttrsDatasource", DClass (Some "mark_or_node.Base") []
        [(s "id", (DOpt, None)); (s "parameters", (DOpt, None)); (s "views", (DOpt, None))]);
     ("nodes.node_block_card.NodeBlockCardAttrs", DClass (Some "mark_or_node.Base") []
        [(s "url", (DOpt, None)); (s "localId", (DOpt, None)); (s "datasource", (DOpt, Some "nodes.node_block_card.NodeBlockCardAttrsDatasource")); (s "width", (DOpt, None)); (s "layout", (DOpt, None)); (s "data", (DOpt, None))]);
     ("nodes.node_block_card.NodeBlockCard", DClass (Some "mark_or_node.BaseNode") []
        [(s "type", ((DVal (VStr (s "blockCard"))), None)); (s "attrs", (DReq, Some "nodes.node_block_card.NodeBlockCardAttrs"))]);
     ("nodes.node_blockquote.NodeBlockquoteAttrs", DClass (Some "mark_or_node.Base") []
        [(s "localId", (DOpt, None))]);
     ("nodes.node_blockquote.NodeBlockquote", DClass (Some "mark_or_node.BaseNode") []
        [(s "type", ((DVal (VStr (s "blockquote"))), None)); (s "attrs", (DOpt, Some "nodes.node_blockquote.NodeBlockquoteAttrs")); (s "content", (DReq, None))]);
     ("nodes.node_bullet_list.NodeBulletList", DClass (Some "mark_or_node.BaseNode") []
        [(s "type", ((DVal (VStr (s "bulletList"))), None)); (s "content", (DReq, None))]);
     ("nodes.node_caption.NodeCaptionAttrs", DClass (Some "mark_or_node.Base") []
        [(s "localId", (DOpt, None))]);
     ("nodes.node_caption.NodeCaption", DClass (Some "mark_or_node.BaseNode") []
        [(s "type", ((DVal (VStr (s "caption"))), None)); (s "attrs", (DOpt, Some "nodes.node_caption.NodeCaptionAttrs")); (s "content", (DOpt, None))]);
     ("nodes.node_code_block.NodeCodeBlockAttrs", DClass (Some "mark_or_node.Base") []
        [(s "language", (DOpt, None)); (s "uniqueId", (DOpt, None)); (s "localId", (DOpt, None))]);
     ("nodes.node_code_block.NodeCodeBlock", DClass (Some "mark_or_node.BaseNode") []
        [(s "type", ((DVal (VStr (s "codeBlock"))), None)); (s "attrs", (DOpt, Some "nodes.node_code_block.NodeCodeBlockAttrs")); (s "content", (DOpt, None))]);
     ("nodes.node_date.NodeDateAttrs", DClass (Some "mark_or_node.Base") []
        [(s "timestamp", (DReq, None)); (s "localId", (DOpt, None))]);
     ("nodes.node_date.NodeDate", DClass (Some "mark_or_node.BaseNode") []
        [(s "type", ((DVal (VStr (s "date"))), None)); (s "attrs", (DReq, Some "nodes.node_date.NodeDateAttrs"))]);
     ("nodes.node_decision_item.NodeDecisionItemAttrs", DClass (Some "mark_or_node.Base") []
        [(s "localId", (DReq, None)); (s "state", (DReq, None))]);
     ("nodes.node_decision_item.NodeDecisionItem", DClass (Some "mark_or_node.BaseNode") []
        [(s "type", ((DVal (VStr (s "decisionItem"))), None)); (s "attrs", (DReq, Some "nodes.node_decision_item.NodeDecisionItemAttrs")); (s "content", (DOpt, None))]);
     ("nodes.node_decision_list.NodeDecisionListAttrs", DClass (Some "mark_or_node.Base") []
        [(s "localId", (DReq, None))]);
     ("nodes.node_decision_list.NodeDecisionList", DClass (Some "mark_or_node.BaseNode") []
        [(s "type", ((DVal (VStr (s "decisionList"))), None)); (s "attrs", (DReq, Some "nodes.node_decision_list.NodeDecisionListAttrs")); (s "content", (DReq, None))]);
     ("nodes.node_doc.NodeDoc", DClass (Some "mark_or_node.BaseNode") []
        [(s "version", ((DVal (VInt 1)), None)); (s "type", ((DVal (VStr (s "doc"))), None)); (s "content", (DReq, None))]);
     ("nodes.node_embed_card.NodeEmbedCardAttrs", DClass (Some "mark_or_node.Base") []
        [(s "url", (DReq, None)); (s "layout", (DReq, None)); (s "width", (DOpt, None)); (s "originalHeight", (DOpt, None)); (s "originalWidth", (DOpt, None)); (s "localId", (DOpt, None))]);
     ("nodes.node_embed_card.NodeEmbedCard", DClass (Some "mark_or_node.BaseNode") []
        [(s "type", ((DVal (VStr (s "embedCard"))), None)); (s "attrs", (DReq, Some "nodes.node_embed_card.NodeEmbedCardAttrs"))]);
     ("nodes.node_emoji.NodeEmojiAttrs", DClass (Some "mark_or_node.Base") []
        [(s "shortName", (DReq, None)); (s "id", (DOpt, None)); (s "text", (DOpt, None)); (s "localId", (DOpt, None))]);
     ("nodes.node_emoji.NodeEmoji", DClass (Some "mark_or_node.BaseNode") []
        [(s "type", ((DVal (VStr (s "emoji"))), None)); (s "attrs", (DReq, Some "nodes.node_emoji.NodeEmojiAttrs"))]);
     ("nodes.node_expand.NodeExpandAttrs", DClass (Some "mark_or_node.Base") []
        [(s "title", (DOpt, None)); (s "localId", (DOpt, None))]);
     ("nodes.node_expand.NodeExpand", DClass (Some "mark_or_node.BaseNode") []
        [(s "type", ((DVal (VStr (s "expand"))), None)); (s "attrs", (DOpt, Some "nodes.node_expand.NodeExpandAttrs")); (s "content", (DReq, None))]);
     ("nodes.node_extension.NodeExtensionAttrs", DClass (Some "mark_or_node.Base") []
        [(s "extensionKey", (DReq, None)); (s "extensionType", (DReq, None)); (s "parameters", (DOpt, None)); (s "text", (DOpt, None)); (s "layout", (DOpt, None)); (s "localId", (DOpt, None))]);
     ("nodes.node_extension.NodeExtension", DClass (Some "mark_or_node.BaseNode") []
        [(s "type", ((DVal (VStr (s "extension"))), None)); (s "attrs", (DReq, Some "nodes.node_extension.NodeExtensionAttrs")); (s "marks", (DOpt, None))]);
     ("nodes.node_hard_break.NodeHardBreakAttrs", DClass (Some "mark_or_node.Base") []
        [(s "text", (DOpt, None)); (s "localId", (DOpt, None))]);
     ("nodes.node_hard_break.NodeHardBreak", DClass (Some "mark_or_node.BaseNode") []
        [(s "type", ((DVal (VStr (s "hardBreak"))), None)); (s "attrs", (DOpt, Some "nodes.node_hard_break.NodeHardBreakAttrs"))]);
     ("nodes.node_heading.NodeHeadingAttrs", DClass (Some "mark_or_node.Base") []
        [(s "level", (DReq, None)); (s "localId", (DOpt, None))]);
     ("nodes.node_heading.NodeHeading", DClass (Some "mark_or_node.BaseNode") []
        [(s "type", ((DVal (VStr (s "heading"))), None)); (s "attrs", (DReq, Some "nodes.node_heading.NodeHeadingAttrs")); (s "content", (DOpt, None)); (s "marks", (DOpt, None))]);
     ("nodes.node_inline_card.NodeInlineCardAttrs", DClass (Some "mark_or_node.Base") []
        [(s "url", (DOpt, None)); (s "data", (DOpt, None)); (s "localId", (DOpt, None))]);
     ("nodes.node_inline_card.NodeInlineCard", DClass (Some "mark_or_node.BaseNode") []
        [(s "type", ((DVal (VStr (s "inlineCard"))), None)); (s "attrs", (DReq, Some "nodes.node_inline_card.NodeInlineCardAttrs"))]);
     ("nodes.node_list_item.NodeListItemAttrs", DClass (Some "mark_or_node.Base") []
        [(s "localId", (DOpt, None))]);
     ("nodes.node_list_item.NodeListItem", DClass (Some "mark_or_node.BaseNode") []
        [(s "type", ((DVal (VStr (s "listItem"))), None)); (s "attrs", (DOpt, Some "nodes.node_list_item.NodeListItemAttrs")); (s "content", (DReq, None))]);
     ("nodes.node_media.NodeMediaAttrs", DClass (Some "mark_or_node.Base") []
        [(s "type", (DReq, None)); (s "id", (DOpt, None)); (s "collection", (DOpt, None)); (s "url", (DOpt, None)); (s "localId", (DOpt, None)); (s "alt", (DOpt, None)); (s "width", (DOpt, None)); (s "height", (DOpt, None)); (s "occurrenceKey", (DOpt, None))]);
     ("nodes.node_media.NodeMedia", DClass (Some "mark_or_node.BaseNode") []
        [(s "type", ((DVal (VStr (s "media"))), None)); (s "attrs", (DReq, Some "nodes.node_media.NodeMediaAttrs")); (s "marks", (DOpt, None))]);
     ("nodes.node_media_group.NodeMediaGroup", DClass (Some "mark_or_node.BaseNode") []
        [(s "type", ((DVal (VStr (s "mediaGroup"))), None)); (s "content", (DReq, None))]);
     ("nodes.node_media_inline.NodeMediaInlineAttrs", DClass (Some "mark_or_node.Base") []
        [(s "id", (DReq, None)); (s "collection", (DReq, None)); (s "type", (DOpt, None)); (s "localId", (DOpt, None)); (s "alt", (DOpt, None)); (s "occurrenceKey", (DOpt, None)); (s "width", (DOpt, None)); (s "height", (DOpt, None)); (s "data", (DOpt, None))]);
     ("nodes.node_media_inline.NodeMediaInline", DClass (Some "mark_or_node.BaseNode") []
        [(s "type", ((DVal (VStr (s "mediaInline"))), None)); (s "attrs", (DReq, Some "nodes.node_media_inline.NodeMediaInlineAttrs")); (s "marks", (DOpt, None))]);
     ("nodes.node_media_single.NodeMediaSingleAttrs", DClass (Some "mark_or_node.Base") []
        [(s "layout", (DOpt, None)); (s "width", (DOpt, None)); (s "widthType", (DOpt, None)); (s "localId", (DOpt, None))]);
     ("nodes.node_media_single.NodeMediaSingle", DClass (Some "mark_or_node.BaseNode") []
        [(s "type", ((DVal (VStr (s "mediaSingle"))), None)); (s "attrs", (DOpt, Some "nodes.node_media_single.NodeMediaSingleAttrs")); (s "content", (DOpt, None)); (s "marks", (DOpt, None))]);
     ("nodes.node_mention.NodeMentionAttrs", DClass (Some "mark_or_node.Base") []
        [(s "id", (DReq, None)); (s "localId", (DOpt, None)); (s "text", (DOpt, None)); (s "accessLevel", (DOpt, None)); (s "userType", (DOpt, None))]);
     ("nodes.node_mention.NodeMention", DClass (Some "mark_or_node.BaseNode") []
        [(s "type", ((DVal (VStr (s "mention"))), None)); (s "attrs", (DReq, Some "nodes.node_mention.NodeMentionAttrs"))]);
     ("nodes.node_nested_expand.NodeNestedExpandAttrs", DClass (Some "mark_or_node.Base") []
        [(s "title", (DOpt, None)); (s "localId", (DOpt, None))]);
     ("nodes.node_nested_expand.NodeNestedExpand", DClass (Some "mark_or_node.BaseNode") []
        [(s "type", ((DVal (VStr (s "nestedExpand"))), None)); (s "attrs", (DReq, Some "nodes.node_nested_expand.NodeNestedExpandAttrs")); (s "content", (DReq, None))]);
     ("nodes.node_ordered_list.NodeOrderedListAttrs", DClass (Some "mark_or_node.Base") []
        [(s "order", (DOpt, None)); (s "localId", (DOpt, None))]);
     ("nodes.node_ordered_list.NodeOrderedList", DClass (Some "mark_or_node.BaseNode") []
        [(s "type", ((DVal (VStr (s "orderedList"))), None)); (s "attrs", (DOpt, Some "nodes.node_ordered_list.NodeOrderedListAttrs")); (s "content", (DReq, None))]);
     ("nodes.node_panel.NodePanelAttrs", DClass (Some "mark_or_node.Base") []
        [(s "panelType", (DReq, None)); (s "panelIcon", (DOpt, None)); (s "panelIconId", (DOpt, None)); (s "panelIconText", (DOpt, None)); (s "panelColor", (DOpt, None)); (s "localId", (DOpt, None))]);
     ("nodes.node_panel.NodePanel", DClass (Some "mark_or_node.BaseNode") []
        [(s "type", ((DVal (VStr (s "panel"))), None)); (s "attrs", (DReq, Some "nodes.node_panel.NodePanelAttrs")); (s "content", (DReq, None))]);
     ("nodes.node_paragraph.NodeParagraphAttrs", DClass (Some "mark_or_node.Base") []
        [(s "localId", (DOpt, None))]);
     ("nodes.node_paragraph.NodeParagraph", DClass (Some "mark_or_node.BaseNode") []
        [(s "type", ((DVal (VStr (s "paragraph"))), None)); (s "attrs", (DOpt, Some "nodes.node_paragraph.NodeParagraphAttrs")); (s "content", (DOpt, None)); (s "marks", (DOpt, None))]);
     ("nodes.node_rule.NodeRuleAttrs", DClass (Some "mark_or_node.Base") []
        [(s "localId", (DOpt, None))]);
     ("nodes.node_rule.NodeRule", DClass (Some "mark_or_node.BaseNode") []
        [(s "type", ((DVal (VStr (s "rule"))), None)); (s "attrs", (DOpt, Some "nodes.node_rule.NodeRuleAttrs"))]);
     ("nodes.node_status.NodeStatusAttrs", DClass (Some "mark_or_node.Base") []
        [(s "text", (DReq, None)); (s "color", (DReq, None)); (s "localId", (DOpt, None)); (s "style", (DOpt, None))]);
     ("nodes.node_status.NodeStatus", DClass (Some "mark_or_node.BaseNode") []
        [(s "type", ((DVal (VStr (s "status"))), None)); (s "attrs", (DReq, Some "nodes.node_status.NodeStatusAttrs"))]);
     ("nodes.node_table.NodeTableAttrs", DClass (Some "mark_or_node.Base") []
        [(s "displayMode", (DOpt, None)); (s "isNumberColumnEnabled", (DOpt, None)); (s "layout", (DOpt, None)); (s "localId", (DOpt, None)); (s "width", (DOpt, None))]);
     ("nodes.node_table.NodeTable", DClass (Some "mark_or_node.BaseNode") []
        [(s "type", ((DVal (VStr (s "table"))), None)); (s "attrs", (DOpt, Some "nodes.node_table.NodeTableAttrs")); (s "content", (DReq, None)); (s "marks", (DOpt, None))]);
     ("nodes.node_table_cell.NodeTableCellAttrs", DClass (Some "mark_or_node.Base") []
        [(s "colspan", (DOpt, None)); (s "rowspan", (DOpt, None)); (s "colwidth", (DOpt, None)); (s "background", (DOpt, None)); (s "localId", (DOpt, None))]);
     ("nodes.node_table_cell.NodeTableCell", DClass (Some "mark_or_node.BaseNode") []
        [(s "type", ((DVal (VStr (s "tableCell"))), None)); (s "attrs", (DOpt, Some "nodes.node_table_cell.NodeTableCellAttrs")); (s "content", (DReq, None))]);
     ("nodes.node_table_header.NodeTableHeaderAttrs", DClass (Some "mark_or_node.Base") []
        [(s "colspan", (DOpt, None)); (s "rowspan", (DOpt, None)); (s "colwidth", (DOpt, None)); (s "background", (DOpt, None)); (s "localId", (DOpt, None))]);
     ("nodes.node_table_header.NodeTableHeader", DClass (Some "mark_or_node.BaseNode") []
        [(s "type", ((DVal (VStr (s "tableHeader"))), None)); (s "attrs", (DOpt, Some "nodes.node_table_header.NodeTableHeaderAttrs")); (s "content", (DReq, None))]);
     ("nodes.node_table_row.NodeTableRowAttrs", DClass (Some "mark_or_node.Base") []
        [(s "localId", (DOpt, None))]);
     ("nodes.node_table_row.NodeTableRow", DClass (Some "mark_or_node.BaseNode") []
        [(s "type", ((DVal (VStr (s "tableRow"))), None)); (s "attrs", (DOpt, Some "nodes.node_table_row.NodeTableRowAttrs")); (s "content", (DReq, None))]);
     ("nodes.node_task_item.NodeTaskItemAttrs", DClass (Some "mark_or_node.Base") []
        [(s "localId", (DReq, None)); (s "state", (DReq, None))]);
     ("nodes.node_task_item.NodeTaskItem", DClass (Some "mark_or_node.BaseNode") []
        [(s "type", ((DVal (VStr (s "taskItem"))), None)); (s "attrs", (DReq, Some "nodes.node_task_item.NodeTaskItemAttrs")); (s "content", (DOpt, None))]);
     ("nodes.node_task_list.NodeTaskListAttrs", DClass (Some "mark_or_node.Base") []
        [(s "localId", (DReq, None))]);
     ("nodes.node_task_list.NodeTaskList", DClass (Some "mark_or_node.BaseNode") []
        [(s "type", ((DVal (VStr (s "taskList"))), None)); (s "attrs", (DReq, Some "nodes.node_task_list.NodeTaskListAttrs")); (s "content", (DReq, None))]);
     ("nodes.node_text.NodeText", DClass (Some "mark_or_node.BaseNode") []
        [(s "type", ((DVal (VStr (s "text"))), None)); (s "text", (DReq, None)); (s "marks", (DOpt, None))]);
     ("marks.mark_alignment.MarkAlignmentAttrs", DClass (Some "mark_or_node.Base") []
        [(s "align", (DNone, None))]);
     ("marks.mark_alignment.MarkAlignment", DClass (Some "mark_or_node.BaseMark") []
        [(s "type", ((DVal (VStr (s "alignment"))), None)); (s "attrs", (DReq, Some "marks.mark_alignment.MarkAlignmentAttrs"))]);
     ("marks.mark_annotation.MarkAnnotationAttrs", DClass (Some "mark_or_node.Base") []
        [(s "id", (DReq, None)); (s "annotationType", (DReq, None))]);
     ("marks.mark_annotation.MarkAnnotation", DClass (Some "mark_or_node.BaseMark") []
        [(s "type", ((DVal (VStr (s "annotation"))), None)); (s "attrs", (DReq, Some "marks.mark_annotation.MarkAnnotationAttrs"))]);
     ("marks.mark_background_color.MarkBackgroundColorAttrs", DClass (Some "mark_or_node.Base") []
        [(s "color", (DNone, None))]);
     ("marks.mark_background_color.MarkBackgroundColor", DClass (Some "mark_or_node.BaseMark") []
        [(s "type", ((DVal (VStr (s "backgroundColor"))), None)); (s "attrs", (DReq, Some "marks.mark_background_color.MarkBackgroundColorAttrs"))]);
     ("marks.mark_border.MarkBorderAttrs", DClass (Some "mark_or_node.Base") []
        [(s "size", (DReq, None)); (s "color", (DReq, None))]);
     ("marks.mark_border.MarkBorder", DClass (Some "mark_or_node.BaseMark") []
        [(s "type", ((DVal (VStr (s "border"))), None)); (s "attrs", (DReq, Some "marks.mark_border.MarkBorderAttrs"))]);
     ("marks.mark_breakout.MarkBreakoutAttrs", DClass (Some "mark_or_node.Base") []
        [(s "mode", (DNone, None)); (s "width", (DOpt, None))]);
     ("marks.mark_breakout.MarkBreakout", DClass (Some "mark_or_node.BaseMark") []
        [(s "type", ((DVal (VStr (s "breakout"))), None)); (s "attrs", (DReq, Some "marks.mark_breakout.MarkBreakoutAttrs"))]);
     ("marks.mark_code.MarkCode", DClass (Some "mark_or_node.BaseMark") []
        [(s "type", ((DVal (VStr (s "code"))), None))]);
     ("marks.mark_data_consumer.MarkDataConsumerAttrs", DClass (Some "mark_or_node.Base") []
        [(s "sources", (DNone, None))]);
     ("marks.mark_data_consumer.MarkDataConsumer", DClass (Some "mark_or_node.BaseMark") []
        [(s "type", ((DVal (VStr (s "dataConsumer"))), None)); (s "attrs", (DReq, Some "marks.mark_data_consumer.MarkDataConsumerAttrs"))]);
     ("marks.mark_em.MarkEm", DClass (Some "mark_or_node.BaseMark") []
        [(s "type", ((DVal (VStr (s "em"))), None))]);
     ("marks.mark_fragment.MarkFragmentAttrs", DClass (Some "mark_or_node.Base") []
        [(s "localId", (DNone, None)); (s "name", (DOpt, None))]);
     ("marks.mark_fragment.MarkFragment", DClass (Some "mark_or_node.BaseMark") []
        [(s "type", ((DVal (VStr (s "fragment"))), None)); (s "attrs", (DReq, Some "marks.mark_fragment.MarkFragmentAttrs"))]);
     ("marks.mark_indentation.MarkIndentationAttrs", DClass (Some "mark_or_node.Base") []
        [(s "level", (DReq, None))]);
     ("marks.mark_indentation.MarkIndentation", DClass (Some "mark_or_node.BaseMark") []
        [(s "type", ((DVal (VStr (s "indentation"))), None)); (s "attrs", (DReq, Some "marks.mark_indentation.MarkIndentationAttrs"))]);
     ("marks.mark_link.MarkLinkAttrs", DClass (Some "mark_or_node.Base") []
        [(s "href", (DReq, None)); (s "title", (DOpt, None)); (s "id", (DOpt, None)); (s "collection", (DOpt, None)); (s "occurrenceKey", (DOpt, None))]);
     ("marks.mark_link.MarkLink", DClass (Some "mark_or_node.BaseMark") []
        [(s "type", ((DVal (VStr (s "link"))), None)); (s "attrs", (DReq, Some "marks.mark_link.MarkLinkAttrs"))]);
     ("marks.mark_strike.MarkStrike", DClass (Some "mark_or_node.BaseMark") []
        [(s "type", ((DVal (VStr (s "strike"))), None))]);
     ("marks.mark_strong.MarkStrong", DClass (Some "mark_or_node.BaseMark") []
        [(s "type", ((DVal (VStr (s "strong"))), None))]);
     ("marks.mark_subsup.MarkSubsupAttrs", DClass (Some "mark_or_node.Base") []
        [(s "type", (DReq, None))]);
     ("marks.mark_subsup.MarkSubsup", DClass (Some "mark_or_node.BaseMark") []
        [(s "type", ((DVal (VStr (s "subsup"))), None)); (s "attrs", (DReq, Some "marks.mark_subsup.MarkSubsupAttrs"))]);
     ("marks.mark_text_color.MarkTextColorAttrs", DClass (Some "mark_or_node.Base") []
        [(s "color", (DNone, None))]);
     ("marks.mark_text_color.MarkTextColor", DClass (Some "mark_or_node.BaseMark") []
        [(s "type", ((DVal (VStr (s "textColor"))), None)); (s "attrs", (DReq, Some "marks.mark_text_color.MarkTextColorAttrs"))]);
     ("marks.mark_underline.MarkUnderline", DClass (Some "mark_or_node.BaseMark") []
        [(s "type", ((DVal (VStr (s "underline"))), None))])] |}.
