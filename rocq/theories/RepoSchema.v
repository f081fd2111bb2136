(** GENERATED by tools/gen_schema.py from the text of /repo/atlas_doc_parser: for every registered class, in the
    order of NODE_TYPE_TO_CLASS_MAPPING (nodes/parse_node.py:61-97) and MARK_TYPE_TO_CLASS_MAPPING
    (marks/parse_mark.py:42-59), the registry key, the dataclass fields and those of its Attrs class, each with its
    default; and the members of TypeEnum (type_enum.py). *)
From Coq Require Import List String ZArith.
Import ListNotations.
Open Scope string_scope.
(** [= REQ], [= OPT], no default, another default. *)
Inductive decl := Required | Optional | Positional | DefaultStr (x : string) | DefaultInt (z : Z).
Record row := Row { r_type : string; r_fields : list (string * decl); r_attrs : list (string * decl) }.
Definition node_rows : list row :=
  [Row "doc" [("type", DefaultStr "doc"); ("version", DefaultInt 1); ("content", Required)] [] (* nodes/node_doc.py NodeDoc *);
   Row "text" [("type", DefaultStr "text"); ("text", Required); ("marks", Optional)] [] (* nodes/node_text.py NodeText *);
   Row "rule" [("type", DefaultStr "rule"); ("attrs", Optional)] [("localId", Optional)] (* nodes/node_rule.py NodeRule *);
   Row "listItem" [("type", DefaultStr "listItem"); ("attrs", Optional); ("content", Required)] [("localId", Optional)] (* nodes/node_list_item.py NodeListItem *);
   Row "bulletList" [("type", DefaultStr "bulletList"); ("content", Required)] [] (* nodes/node_bullet_list.py NodeBulletList *);
   Row "orderedList" [("type", DefaultStr "orderedList"); ("attrs", Optional); ("content", Required)] [("order", Optional); ("localId", Optional)] (* nodes/node_ordered_list.py NodeOrderedList *);
   Row "paragraph" [("type", DefaultStr "paragraph"); ("attrs", Optional); ("content", Optional); ("marks", Optional)] [("localId", Optional)] (* nodes/node_paragraph.py NodeParagraph *);
   Row "taskItem" [("type", DefaultStr "taskItem"); ("attrs", Required); ("content", Optional)] [("localId", Required); ("state", Required)] (* nodes/node_task_item.py NodeTaskItem *);
   Row "taskList" [("type", DefaultStr "taskList"); ("attrs", Required); ("content", Required)] [("localId", Required)] (* nodes/node_task_list.py NodeTaskList *);
   Row "decisionItem" [("type", DefaultStr "decisionItem"); ("attrs", Required); ("content", Optional)] [("localId", Required); ("state", Required)] (* nodes/node_decision_item.py NodeDecisionItem *);
   Row "decisionList" [("type", DefaultStr "decisionList"); ("attrs", Required); ("content", Required)] [("localId", Required)] (* nodes/node_decision_list.py NodeDecisionList *);
   Row "emoji" [("type", DefaultStr "emoji"); ("attrs", Required)] [("shortName", Required); ("id", Optional); ("text", Optional); ("localId", Optional)] (* nodes/node_emoji.py NodeEmoji *);
   Row "hardBreak" [("type", DefaultStr "hardBreak"); ("attrs", Optional)] [("text", Optional); ("localId", Optional)] (* nodes/node_hard_break.py NodeHardBreak *);
   Row "date" [("type", DefaultStr "date"); ("attrs", Required)] [("timestamp", Required); ("localId", Optional)] (* nodes/node_date.py NodeDate *);
   Row "mention" [("type", DefaultStr "mention"); ("attrs", Required)] [("id", Required); ("localId", Optional); ("text", Optional); ("accessLevel", Optional); ("userType", Optional)] (* nodes/node_mention.py NodeMention *);
   Row "status" [("type", DefaultStr "status"); ("attrs", Required)] [("text", Required); ("color", Required); ("localId", Optional); ("style", Optional)] (* nodes/node_status.py NodeStatus *);
   Row "heading" [("type", DefaultStr "heading"); ("attrs", Required); ("content", Optional); ("marks", Optional)] [("level", Required); ("localId", Optional)] (* nodes/node_heading.py NodeHeading *);
   Row "codeBlock" [("type", DefaultStr "codeBlock"); ("attrs", Optional); ("content", Optional)] [("language", Optional); ("uniqueId", Optional); ("localId", Optional)] (* nodes/node_code_block.py NodeCodeBlock *);
   Row "inlineCard" [("type", DefaultStr "inlineCard"); ("attrs", Required)] [("url", Optional); ("data", Optional); ("localId", Optional)] (* nodes/node_inline_card.py NodeInlineCard *);
   Row "blockCard" [("type", DefaultStr "blockCard"); ("attrs", Required)] [("url", Optional); ("localId", Optional); ("datasource", Optional); ("width", Optional); ("layout", Optional); ("data", Optional)] (* nodes/node_block_card.py NodeBlockCard *);
   Row "media" [("type", DefaultStr "media"); ("attrs", Required); ("marks", Optional)] [("type", Required); ("id", Optional); ("collection", Optional); ("url", Optional); ("localId", Optional); ("alt", Optional); ("width", Optional); ("height", Optional); ("occurrenceKey", Optional)] (* nodes/node_media.py NodeMedia *);
   Row "mediaGroup" [("type", DefaultStr "mediaGroup"); ("content", Required)] [] (* nodes/node_media_group.py NodeMediaGroup *);
   Row "mediaSingle" [("type", DefaultStr "mediaSingle"); ("attrs", Optional); ("content", Optional); ("marks", Optional)] [("layout", Optional); ("width", Optional); ("widthType", Optional); ("localId", Optional)] (* nodes/node_media_single.py NodeMediaSingle *);
   Row "embedCard" [("type", DefaultStr "embedCard"); ("attrs", Required)] [("url", Required); ("layout", Required); ("width", Optional); ("originalHeight", Optional); ("originalWidth", Optional); ("localId", Optional)] (* nodes/node_embed_card.py NodeEmbedCard *);
   Row "extension" [("type", DefaultStr "extension"); ("attrs", Required); ("marks", Optional)] [("extensionKey", Required); ("extensionType", Required); ("parameters", Optional); ("text", Optional); ("layout", Optional); ("localId", Optional)] (* nodes/node_extension.py NodeExtension *);
   Row "caption" [("type", DefaultStr "caption"); ("attrs", Optional); ("content", Optional)] [("localId", Optional)] (* nodes/node_caption.py NodeCaption *);
   Row "mediaInline" [("type", DefaultStr "mediaInline"); ("attrs", Required); ("marks", Optional)] [("id", Required); ("collection", Required); ("type", Optional); ("localId", Optional); ("alt", Optional); ("occurrenceKey", Optional); ("width", Optional); ("height", Optional); ("data", Optional)] (* nodes/node_media_inline.py NodeMediaInline *);
   Row "panel" [("type", DefaultStr "panel"); ("attrs", Required); ("content", Required)] [("panelType", Required); ("panelIcon", Optional); ("panelIconId", Optional); ("panelIconText", Optional); ("panelColor", Optional); ("localId", Optional)] (* nodes/node_panel.py NodePanel *);
   Row "blockquote" [("type", DefaultStr "blockquote"); ("attrs", Optional); ("content", Required)] [("localId", Optional)] (* nodes/node_blockquote.py NodeBlockquote *);
   Row "expand" [("type", DefaultStr "expand"); ("attrs", Optional); ("content", Required)] [("title", Optional); ("localId", Optional)] (* nodes/node_expand.py NodeExpand *);
   Row "nestedExpand" [("type", DefaultStr "nestedExpand"); ("attrs", Required); ("content", Required)] [("title", Optional); ("localId", Optional)] (* nodes/node_nested_expand.py NodeNestedExpand *);
   Row "tableCell" [("type", DefaultStr "tableCell"); ("attrs", Optional); ("content", Required)] [("colspan", Optional); ("rowspan", Optional); ("colwidth", Optional); ("background", Optional); ("localId", Optional)] (* nodes/node_table_cell.py NodeTableCell *);
   Row "tableHeader" [("type", DefaultStr "tableHeader"); ("attrs", Optional); ("content", Required)] [("colspan", Optional); ("rowspan", Optional); ("colwidth", Optional); ("background", Optional); ("localId", Optional)] (* nodes/node_table_header.py NodeTableHeader *);
   Row "tableRow" [("type", DefaultStr "tableRow"); ("attrs", Optional); ("content", Required)] [("localId", Optional)] (* nodes/node_table_row.py NodeTableRow *);
   Row "table" [("type", DefaultStr "table"); ("attrs", Optional); ("content", Required); ("marks", Optional)] [("displayMode", Optional); ("isNumberColumnEnabled", Optional); ("layout", Optional); ("localId", Optional); ("width", Optional)] (* nodes/node_table.py NodeTable *)].
Definition mark_rows : list row :=
  [Row "backgroundColor" [("type", DefaultStr "backgroundColor"); ("attrs", Required)] [("color", Positional)] (* marks/mark_background_color.py MarkBackgroundColor *);
   Row "code" [("type", DefaultStr "code")] [] (* marks/mark_code.py MarkCode *);
   Row "em" [("type", DefaultStr "em")] [] (* marks/mark_em.py MarkEm *);
   Row "link" [("type", DefaultStr "link"); ("attrs", Required)] [("href", Required); ("title", Optional); ("id", Optional); ("collection", Optional); ("occurrenceKey", Optional)] (* marks/mark_link.py MarkLink *);
   Row "strike" [("type", DefaultStr "strike")] [] (* marks/mark_strike.py MarkStrike *);
   Row "strong" [("type", DefaultStr "strong")] [] (* marks/mark_strong.py MarkStrong *);
   Row "subsup" [("type", DefaultStr "subsup"); ("attrs", Required)] [("type", Required)] (* marks/mark_subsup.py MarkSubsup *);
   Row "textColor" [("type", DefaultStr "textColor"); ("attrs", Required)] [("color", Positional)] (* marks/mark_text_color.py MarkTextColor *);
   Row "underline" [("type", DefaultStr "underline")] [] (* marks/mark_underline.py MarkUnderline *);
   Row "annotation" [("type", DefaultStr "annotation"); ("attrs", Required)] [("id", Required); ("annotationType", Required)] (* marks/mark_annotation.py MarkAnnotation *);
   Row "indentation" [("type", DefaultStr "indentation"); ("attrs", Required)] [("level", Required)] (* marks/mark_indentation.py MarkIndentation *);
   Row "border" [("type", DefaultStr "border"); ("attrs", Required)] [("size", Required); ("color", Required)] (* marks/mark_border.py MarkBorder *);
   Row "alignment" [("type", DefaultStr "alignment"); ("attrs", Required)] [("align", Positional)] (* marks/mark_alignment.py MarkAlignment *);
   Row "breakout" [("type", DefaultStr "breakout"); ("attrs", Required)] [("mode", Positional); ("width", Optional)] (* marks/mark_breakout.py MarkBreakout *);
   Row "dataConsumer" [("type", DefaultStr "dataConsumer"); ("attrs", Required)] [("sources", Positional)] (* marks/mark_data_consumer.py MarkDataConsumer *);
   Row "fragment" [("type", DefaultStr "fragment"); ("attrs", Required)] [("localId", Positional); ("name", Optional)] (* marks/mark_fragment.py MarkFragment *)].
Definition type_enum_rows : list (string * string) :=
  [("alignment", "alignment");
   ("annotation", "annotation");
   ("backgroundColor", "backgroundColor");
   ("border", "border");
   ("breakout", "breakout");
   ("code", "code");
   ("em", "em");
   ("indentation", "indentation");
   ("link", "link");
   ("strike", "strike");
   ("strong", "strong");
   ("subsup", "subsup");
   ("textColor", "textColor");
   ("underline", "underline");
   ("blockCard", "blockCard");
   ("blockTaskItem", "blockTaskItem");
   ("blockquote", "blockquote");
   ("bodiedExtension", "bodiedExtension");
   ("bodiedSyncBlock", "bodiedSyncBlock");
   ("bulletList", "bulletList");
   ("caption", "caption");
   ("codeBlock", "codeBlock");
   ("dataConsumer", "dataConsumer");
   ("date", "date");
   ("decisionItem", "decisionItem");
   ("decisionList", "decisionList");
   ("doc", "doc");
   ("embedCard", "embedCard");
   ("emoji", "emoji");
   ("expand", "expand");
   ("extension", "extension");
   ("external", "external");
   ("file", "file");
   ("fragment", "fragment");
   ("hardBreak", "hardBreak");
   ("heading", "heading");
   ("image", "image");
   ("inlineCard", "inlineCard");
   ("inlineExtension", "inlineExtension");
   ("layoutColumn", "layoutColumn");
   ("layoutSection", "layoutSection");
   ("listItem", "listItem");
   ("media", "media");
   ("mediaGroup", "mediaGroup");
   ("mediaInline", "mediaInline");
   ("mediaSingle", "mediaSingle");
   ("mention", "mention");
   ("nestedExpand", "nestedExpand");
   ("orderedList", "orderedList");
   ("panel", "panel");
   ("paragraph", "paragraph");
   ("placeholder", "placeholder");
   ("rule", "rule");
   ("status", "status");
   ("sub", "sub");
   ("sup", "sup");
   ("syncBlock", "syncBlock");
   ("table", "table");
   ("tableCell", "tableCell");
   ("tableHeader", "tableHeader");
   ("tableRow", "tableRow");
   ("taskItem", "taskItem");
   ("taskList", "taskList");
   ("text", "text")].
