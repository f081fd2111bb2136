(** GENERATED by tools/gen_modules.py from the text of /repo/atlas_doc_parser: the repository as input of the API
    generator (files of marks/ and nodes/, top-level names of each module), and the committed api.py.
    Dunder members are represented by three of them. *)
From Coq Require Import List NArith Bool String Ascii.
From Verif Require Import PyStr Values GenCode.
Import ListNotations.
Open Scope string_scope.
Open Scope list_scope.

Definition repo_marks : list str := [(s "parse_mark.py"); (s "mark_underline.py"); (s "mark_text_color.py"); (s "mark_subsup.py"); (s "mark_strong.py"); (s "mark_strike.py"); (s "mark_link.py"); (s "mark_indentation.py"); (s "mark_fragment.py"); (s "mark_em.py"); (s "mark_data_consumer.py"); (s "mark_code.py"); (s "mark_breakout.py"); (s "mark_border.py"); (s "mark_background_color.py"); (s "mark_annotation.py"); (s "mark_alignment.py"); (s "__init__.py")].
Definition repo_nodes : list str := [(s "parse_node.py"); (s "node_text.py"); (s "node_task_list.py"); (s "node_task_item.py"); (s "node_table_row.py"); (s "node_table_header.py"); (s "node_table_cell.py"); (s "node_table.py"); (s "node_status.py"); (s "node_rule.py"); (s "node_paragraph.py"); (s "node_panel.py"); (s "node_ordered_list.py"); (s "node_nested_expand.py"); (s "node_mention.py"); (s "node_media_single.py"); (s "node_media_inline.py"); (s "node_media_group.py"); (s "node_media.py"); (s "node_list_item.py"); (s "node_inline_card.py"); (s "node_heading.py"); (s "node_hard_break.py"); (s "node_extension.py"); (s "node_expand.py"); (s "node_emoji.py"); (s "node_embed_card.py"); (s "node_doc.py"); (s "node_decision_list.py"); (s "node_decision_item.py"); (s "node_date.py"); (s "node_code_block.py"); (s "node_caption.py"); (s "node_bullet_list.py"); (s "node_blockquote.py"); (s "node_block_card.py"); (s "__init__.py")].
Definition repo_table : list (str * list (str * member)) :=
  [ ((s "atlas_doc_parser.marks.mark_alignment"), [((s "T"), AnObject); ((s "dataclasses"), AnObject); ((s "REQ"), AnObject); ((s "OPT"), AnObject); ((s "TypeEnum"), AnObject); ((s "Base"), AClass (s "atlas_doc_parser.mark_or_node") true); ((s "BaseMark"), AClass (s "atlas_doc_parser.mark_or_node") true); ((s "MarkAlignmentAttrs"), AClass (s "atlas_doc_parser.marks.mark_alignment") true); ((s "MarkAlignment"), AClass (s "atlas_doc_parser.marks.mark_alignment") true); ((s "__name__"), AnObject); ((s "__doc__"), AnObject); ((s "__file__"), AnObject)]);
    ((s "atlas_doc_parser.marks.mark_annotation"), [((s "dataclasses"), AnObject); ((s "REQ"), AnObject); ((s "OPT"), AnObject); ((s "TypeEnum"), AnObject); ((s "Base"), AClass (s "atlas_doc_parser.mark_or_node") true); ((s "BaseMark"), AClass (s "atlas_doc_parser.mark_or_node") true); ((s "AnnotationType"), AClass (s "atlas_doc_parser.marks.mark_annotation") false); ((s "MarkAnnotationAttrs"), AClass (s "atlas_doc_parser.marks.mark_annotation") true); ((s "MarkAnnotation"), AClass (s "atlas_doc_parser.marks.mark_annotation") true); ((s "__name__"), AnObject); ((s "__doc__"), AnObject); ((s "__file__"), AnObject)]);
    ((s "atlas_doc_parser.marks.mark_background_color"), [((s "dataclasses"), AnObject); ((s "REQ"), AnObject); ((s "OPT"), AnObject); ((s "TypeEnum"), AnObject); ((s "Base"), AClass (s "atlas_doc_parser.mark_or_node") true); ((s "BaseMark"), AClass (s "atlas_doc_parser.mark_or_node") true); ((s "MarkBackgroundColorAttrs"), AClass (s "atlas_doc_parser.marks.mark_background_color") true); ((s "MarkBackgroundColor"), AClass (s "atlas_doc_parser.marks.mark_background_color") true); ((s "__name__"), AnObject); ((s "__doc__"), AnObject); ((s "__file__"), AnObject)]);
    ((s "atlas_doc_parser.marks.mark_border"), [((s "dataclasses"), AnObject); ((s "REQ"), AnObject); ((s "OPT"), AnObject); ((s "TypeEnum"), AnObject); ((s "Base"), AClass (s "atlas_doc_parser.mark_or_node") true); ((s "BaseMark"), AClass (s "atlas_doc_parser.mark_or_node") true); ((s "MarkBorderAttrs"), AClass (s "atlas_doc_parser.marks.mark_border") true); ((s "MarkBorder"), AClass (s "atlas_doc_parser.marks.mark_border") true); ((s "__name__"), AnObject); ((s "__doc__"), AnObject); ((s "__file__"), AnObject)]);
    ((s "atlas_doc_parser.marks.mark_breakout"), [((s "T"), AnObject); ((s "dataclasses"), AnObject); ((s "REQ"), AnObject); ((s "OPT"), AnObject); ((s "TypeEnum"), AnObject); ((s "Base"), AClass (s "atlas_doc_parser.mark_or_node") true); ((s "BaseMark"), AClass (s "atlas_doc_parser.mark_or_node") true); ((s "MarkBreakoutAttrs"), AClass (s "atlas_doc_parser.marks.mark_breakout") true); ((s "MarkBreakout"), AClass (s "atlas_doc_parser.marks.mark_breakout") true); ((s "__name__"), AnObject); ((s "__doc__"), AnObject); ((s "__file__"), AnObject)]);
    ((s "atlas_doc_parser.marks.mark_code"), [((s "dataclasses"), AnObject); ((s "TypeEnum"), AnObject); ((s "BaseMark"), AClass (s "atlas_doc_parser.mark_or_node") true); ((s "MarkCode"), AClass (s "atlas_doc_parser.marks.mark_code") true); ((s "__name__"), AnObject); ((s "__doc__"), AnObject); ((s "__file__"), AnObject)]);
    ((s "atlas_doc_parser.marks.mark_data_consumer"), [((s "dataclasses"), AnObject); ((s "REQ"), AnObject); ((s "OPT"), AnObject); ((s "TypeEnum"), AnObject); ((s "Base"), AClass (s "atlas_doc_parser.mark_or_node") true); ((s "BaseMark"), AClass (s "atlas_doc_parser.mark_or_node") true); ((s "MarkDataConsumerAttrs"), AClass (s "atlas_doc_parser.marks.mark_data_consumer") true); ((s "MarkDataConsumer"), AClass (s "atlas_doc_parser.marks.mark_data_consumer") true); ((s "__name__"), AnObject); ((s "__doc__"), AnObject); ((s "__file__"), AnObject)]);
    ((s "atlas_doc_parser.marks.mark_em"), [((s "dataclasses"), AnObject); ((s "TypeEnum"), AnObject); ((s "BaseMark"), AClass (s "atlas_doc_parser.mark_or_node") true); ((s "MarkEm"), AClass (s "atlas_doc_parser.marks.mark_em") true); ((s "__name__"), AnObject); ((s "__doc__"), AnObject); ((s "__file__"), AnObject)]);
    ((s "atlas_doc_parser.marks.mark_fragment"), [((s "dataclasses"), AnObject); ((s "REQ"), AnObject); ((s "OPT"), AnObject); ((s "TypeEnum"), AnObject); ((s "Base"), AClass (s "atlas_doc_parser.mark_or_node") true); ((s "BaseMark"), AClass (s "atlas_doc_parser.mark_or_node") true); ((s "MarkFragmentAttrs"), AClass (s "atlas_doc_parser.marks.mark_fragment") true); ((s "MarkFragment"), AClass (s "atlas_doc_parser.marks.mark_fragment") true); ((s "__name__"), AnObject); ((s "__doc__"), AnObject); ((s "__file__"), AnObject)]);
    ((s "atlas_doc_parser.marks.mark_indentation"), [((s "dataclasses"), AnObject); ((s "REQ"), AnObject); ((s "OPT"), AnObject); ((s "TypeEnum"), AnObject); ((s "Base"), AClass (s "atlas_doc_parser.mark_or_node") true); ((s "BaseMark"), AClass (s "atlas_doc_parser.mark_or_node") true); ((s "MarkIndentationAttrs"), AClass (s "atlas_doc_parser.marks.mark_indentation") true); ((s "MarkIndentation"), AClass (s "atlas_doc_parser.marks.mark_indentation") true); ((s "__name__"), AnObject); ((s "__doc__"), AnObject); ((s "__file__"), AnObject)]);
    ((s "atlas_doc_parser.marks.mark_link"), [((s "dataclasses"), AnObject); ((s "REQ"), AnObject); ((s "OPT"), AnObject); ((s "TypeEnum"), AnObject); ((s "Base"), AClass (s "atlas_doc_parser.mark_or_node") true); ((s "BaseMark"), AClass (s "atlas_doc_parser.mark_or_node") true); ((s "MarkLinkAttrs"), AClass (s "atlas_doc_parser.marks.mark_link") true); ((s "MarkLink"), AClass (s "atlas_doc_parser.marks.mark_link") true); ((s "__name__"), AnObject); ((s "__doc__"), AnObject); ((s "__file__"), AnObject)]);
    ((s "atlas_doc_parser.marks.mark_strike"), [((s "dataclasses"), AnObject); ((s "TypeEnum"), AnObject); ((s "BaseMark"), AClass (s "atlas_doc_parser.mark_or_node") true); ((s "MarkStrike"), AClass (s "atlas_doc_parser.marks.mark_strike") true); ((s "__name__"), AnObject); ((s "__doc__"), AnObject); ((s "__file__"), AnObject)]);
    ((s "atlas_doc_parser.marks.mark_strong"), [((s "dataclasses"), AnObject); ((s "TypeEnum"), AnObject); ((s "BaseMark"), AClass (s "atlas_doc_parser.mark_or_node") true); ((s "MarkStrong"), AClass (s "atlas_doc_parser.marks.mark_strong") true); ((s "__name__"), AnObject); ((s "__doc__"), AnObject); ((s "__file__"), AnObject)]);
    ((s "atlas_doc_parser.marks.mark_subsup"), [((s "T"), AnObject); ((s "dataclasses"), AnObject); ((s "REQ"), AnObject); ((s "OPT"), AnObject); ((s "TypeEnum"), AnObject); ((s "Base"), AClass (s "atlas_doc_parser.mark_or_node") true); ((s "BaseMark"), AClass (s "atlas_doc_parser.mark_or_node") true); ((s "MarkSubsupAttrs"), AClass (s "atlas_doc_parser.marks.mark_subsup") true); ((s "MarkSubsup"), AClass (s "atlas_doc_parser.marks.mark_subsup") true); ((s "__name__"), AnObject); ((s "__doc__"), AnObject); ((s "__file__"), AnObject)]);
    ((s "atlas_doc_parser.marks.mark_text_color"), [((s "dataclasses"), AnObject); ((s "REQ"), AnObject); ((s "OPT"), AnObject); ((s "TypeEnum"), AnObject); ((s "Base"), AClass (s "atlas_doc_parser.mark_or_node") true); ((s "BaseMark"), AClass (s "atlas_doc_parser.mark_or_node") true); ((s "MarkTextColorAttrs"), AClass (s "atlas_doc_parser.marks.mark_text_color") true); ((s "MarkTextColor"), AClass (s "atlas_doc_parser.marks.mark_text_color") true); ((s "__name__"), AnObject); ((s "__doc__"), AnObject); ((s "__file__"), AnObject)]);
    ((s "atlas_doc_parser.marks.mark_underline"), [((s "dataclasses"), AnObject); ((s "TypeEnum"), AnObject); ((s "BaseMark"), AClass (s "atlas_doc_parser.mark_or_node") true); ((s "MarkUnderline"), AClass (s "atlas_doc_parser.marks.mark_underline") true); ((s "__name__"), AnObject); ((s "__doc__"), AnObject); ((s "__file__"), AnObject)]);
    ((s "atlas_doc_parser.nodes.node_block_card"), [((s "T"), AnObject); ((s "dataclasses"), AnObject); ((s "REQ"), AnObject); ((s "OPT"), AnObject); ((s "T_DATA"), AnObject); ((s "TypeEnum"), AnObject); ((s "Base"), AClass (s "atlas_doc_parser.mark_or_node") true); ((s "BaseNode"), AClass (s "atlas_doc_parser.mark_or_node") true); ((s "NodeBlockCardAttrsDatasourceView"), AClass (s "atlas_doc_parser.nodes.node_block_card") true); ((s "NodeBlockCardAttrsDatasource"), AClass (s "atlas_doc_parser.nodes.node_block_card") true); ((s "NodeBlockCardAttrs"), AClass (s "atlas_doc_parser.nodes.node_block_card") true); ((s "NodeBlockCard"), AClass (s "atlas_doc_parser.nodes.node_block_card") true); ((s "__name__"), AnObject); ((s "__doc__"), AnObject); ((s "__file__"), AnObject)]);
    ((s "atlas_doc_parser.nodes.node_blockquote"), [((s "T"), AnObject); ((s "textwrap"), AnObject); ((s "dataclasses"), AnObject); ((s "REQ"), AnObject); ((s "OPT"), AnObject); ((s "TypeEnum"), AnObject); ((s "Base"), AClass (s "atlas_doc_parser.mark_or_node") true); ((s "BaseNode"), AClass (s "atlas_doc_parser.mark_or_node") true); ((s "strip_double_empty_line"), AnObject); ((s "doc_content_to_markdown"), AnObject); ((s "NodeBlockquoteAttrs"), AClass (s "atlas_doc_parser.nodes.node_blockquote") true); ((s "NodeBlockquote"), AClass (s "atlas_doc_parser.nodes.node_blockquote") true); ((s "__name__"), AnObject); ((s "__doc__"), AnObject); ((s "__file__"), AnObject)]);
    ((s "atlas_doc_parser.nodes.node_bullet_list"), [((s "T"), AnObject); ((s "dataclasses"), AnObject); ((s "REQ"), AnObject); ((s "OPT"), AnObject); ((s "TypeEnum"), AnObject); ((s "BaseNode"), AClass (s "atlas_doc_parser.mark_or_node") true); ((s "NodeBulletList"), AClass (s "atlas_doc_parser.nodes.node_bullet_list") true); ((s "__name__"), AnObject); ((s "__doc__"), AnObject); ((s "__file__"), AnObject)]);
    ((s "atlas_doc_parser.nodes.node_caption"), [((s "T"), AnObject); ((s "dataclasses"), AnObject); ((s "OPT"), AnObject); ((s "TypeEnum"), AnObject); ((s "Base"), AClass (s "atlas_doc_parser.mark_or_node") true); ((s "BaseNode"), AClass (s "atlas_doc_parser.mark_or_node") true); ((s "NodeCaptionAttrs"), AClass (s "atlas_doc_parser.nodes.node_caption") true); ((s "NodeCaption"), AClass (s "atlas_doc_parser.nodes.node_caption") true); ((s "__name__"), AnObject); ((s "__doc__"), AnObject); ((s "__file__"), AnObject)]);
    ((s "atlas_doc_parser.nodes.node_code_block"), [((s "T"), AnObject); ((s "dataclasses"), AnObject); ((s "OPT"), AnObject); ((s "TypeEnum"), AnObject); ((s "Base"), AClass (s "atlas_doc_parser.mark_or_node") true); ((s "BaseNode"), AClass (s "atlas_doc_parser.mark_or_node") true); ((s "content_to_markdown"), AnObject); ((s "ATLASSIAN_LANG_TO_MARKDOWN_LANG_MAPPING"), AnObject); ((s "NodeCodeBlockAttrs"), AClass (s "atlas_doc_parser.nodes.node_code_block") true); ((s "NodeCodeBlock"), AClass (s "atlas_doc_parser.nodes.node_code_block") true); ((s "__name__"), AnObject); ((s "__doc__"), AnObject); ((s "__file__"), AnObject)]);
    ((s "atlas_doc_parser.nodes.node_date"), [((s "dataclasses"), AnObject); ((s "datetime"), AnObject); ((s "timezone"), AnObject); ((s "REQ"), AnObject); ((s "OPT"), AnObject); ((s "TypeEnum"), AnObject); ((s "Base"), AClass (s "atlas_doc_parser.mark_or_node") true); ((s "BaseNode"), AClass (s "atlas_doc_parser.mark_or_node") true); ((s "NodeDateAttrs"), AClass (s "atlas_doc_parser.nodes.node_date") true); ((s "NodeDate"), AClass (s "atlas_doc_parser.nodes.node_date") true); ((s "__name__"), AnObject); ((s "__doc__"), AnObject); ((s "__file__"), AnObject)]);
    ((s "atlas_doc_parser.nodes.node_decision_item"), [((s "T"), AnObject); ((s "dataclasses"), AnObject); ((s "REQ"), AnObject); ((s "OPT"), AnObject); ((s "TypeEnum"), AnObject); ((s "Base"), AClass (s "atlas_doc_parser.mark_or_node") true); ((s "BaseNode"), AClass (s "atlas_doc_parser.mark_or_node") true); ((s "content_to_markdown"), AnObject); ((s "NodeDecisionItemAttrs"), AClass (s "atlas_doc_parser.nodes.node_decision_item") true); ((s "NodeDecisionItem"), AClass (s "atlas_doc_parser.nodes.node_decision_item") true); ((s "__name__"), AnObject); ((s "__doc__"), AnObject); ((s "__file__"), AnObject)]);
    ((s "atlas_doc_parser.nodes.node_decision_list"), [((s "T"), AnObject); ((s "dataclasses"), AnObject); ((s "REQ"), AnObject); ((s "OPT"), AnObject); ((s "TypeEnum"), AnObject); ((s "Base"), AClass (s "atlas_doc_parser.mark_or_node") true); ((s "BaseNode"), AClass (s "atlas_doc_parser.mark_or_node") true); ((s "NodeDecisionListAttrs"), AClass (s "atlas_doc_parser.nodes.node_decision_list") true); ((s "NodeDecisionList"), AClass (s "atlas_doc_parser.nodes.node_decision_list") true); ((s "__name__"), AnObject); ((s "__doc__"), AnObject); ((s "__file__"), AnObject)]);
    ((s "atlas_doc_parser.nodes.node_doc"), [((s "T"), AnObject); ((s "dataclasses"), AnObject); ((s "REQ"), AnObject); ((s "TypeEnum"), AnObject); ((s "BaseNode"), AClass (s "atlas_doc_parser.mark_or_node") true); ((s "doc_content_to_markdown"), AnObject); ((s "NodeDoc"), AClass (s "atlas_doc_parser.nodes.node_doc") true); ((s "__name__"), AnObject); ((s "__doc__"), AnObject); ((s "__file__"), AnObject)]);
    ((s "atlas_doc_parser.nodes.node_embed_card"), [((s "T"), AnObject); ((s "dataclasses"), AnObject); ((s "REQ"), AnObject); ((s "OPT"), AnObject); ((s "TypeEnum"), AnObject); ((s "Base"), AClass (s "atlas_doc_parser.mark_or_node") true); ((s "BaseNode"), AClass (s "atlas_doc_parser.mark_or_node") true); ((s "NodeEmbedCardAttrs"), AClass (s "atlas_doc_parser.nodes.node_embed_card") true); ((s "NodeEmbedCard"), AClass (s "atlas_doc_parser.nodes.node_embed_card") true); ((s "__name__"), AnObject); ((s "__doc__"), AnObject); ((s "__file__"), AnObject)]);
    ((s "atlas_doc_parser.nodes.node_emoji"), [((s "dataclasses"), AnObject); ((s "REQ"), AnObject); ((s "OPT"), AnObject); ((s "TypeEnum"), AnObject); ((s "Base"), AClass (s "atlas_doc_parser.mark_or_node") true); ((s "BaseNode"), AClass (s "atlas_doc_parser.mark_or_node") true); ((s "NodeEmojiAttrs"), AClass (s "atlas_doc_parser.nodes.node_emoji") true); ((s "NodeEmoji"), AClass (s "atlas_doc_parser.nodes.node_emoji") true); ((s "__name__"), AnObject); ((s "__doc__"), AnObject); ((s "__file__"), AnObject)]);
    ((s "atlas_doc_parser.nodes.node_expand"), [((s "T"), AnObject); ((s "dataclasses"), AnObject); ((s "REQ"), AnObject); ((s "OPT"), AnObject); ((s "TypeEnum"), AnObject); ((s "Base"), AClass (s "atlas_doc_parser.mark_or_node") true); ((s "BaseNode"), AClass (s "atlas_doc_parser.mark_or_node") true); ((s "doc_content_to_markdown"), AnObject); ((s "add_style_to_markdown"), AnObject); ((s "NodeExpandAttrs"), AClass (s "atlas_doc_parser.nodes.node_expand") true); ((s "NodeExpand"), AClass (s "atlas_doc_parser.nodes.node_expand") true); ((s "__name__"), AnObject); ((s "__doc__"), AnObject); ((s "__file__"), AnObject)]);
    ((s "atlas_doc_parser.nodes.node_extension"), [((s "T"), AnObject); ((s "dataclasses"), AnObject); ((s "REQ"), AnObject); ((s "OPT"), AnObject); ((s "TypeEnum"), AnObject); ((s "Base"), AClass (s "atlas_doc_parser.mark_or_node") true); ((s "BaseNode"), AClass (s "atlas_doc_parser.mark_or_node") true); ((s "NodeExtensionAttrs"), AClass (s "atlas_doc_parser.nodes.node_extension") true); ((s "NodeExtension"), AClass (s "atlas_doc_parser.nodes.node_extension") true); ((s "__name__"), AnObject); ((s "__doc__"), AnObject); ((s "__file__"), AnObject)]);
    ((s "atlas_doc_parser.nodes.node_hard_break"), [((s "T"), AnObject); ((s "dataclasses"), AnObject); ((s "OPT"), AnObject); ((s "TypeEnum"), AnObject); ((s "Base"), AClass (s "atlas_doc_parser.mark_or_node") true); ((s "BaseNode"), AClass (s "atlas_doc_parser.mark_or_node") true); ((s "NodeHardBreakAttrs"), AClass (s "atlas_doc_parser.nodes.node_hard_break") true); ((s "NodeHardBreak"), AClass (s "atlas_doc_parser.nodes.node_hard_break") true); ((s "__name__"), AnObject); ((s "__doc__"), AnObject); ((s "__file__"), AnObject)]);
    ((s "atlas_doc_parser.nodes.node_heading"), [((s "T"), AnObject); ((s "dataclasses"), AnObject); ((s "REQ"), AnObject); ((s "OPT"), AnObject); ((s "TypeEnum"), AnObject); ((s "Base"), AClass (s "atlas_doc_parser.mark_or_node") true); ((s "BaseNode"), AClass (s "atlas_doc_parser.mark_or_node") true); ((s "BaseMark"), AClass (s "atlas_doc_parser.mark_or_node") true); ((s "content_to_markdown"), AnObject); ((s "NodeHeadingAttrs"), AClass (s "atlas_doc_parser.nodes.node_heading") true); ((s "NodeHeading"), AClass (s "atlas_doc_parser.nodes.node_heading") true); ((s "__name__"), AnObject); ((s "__doc__"), AnObject); ((s "__file__"), AnObject)]);
    ((s "atlas_doc_parser.nodes.node_inline_card"), [((s "T"), AnObject); ((s "dataclasses"), AnObject); ((s "REQ"), AnObject); ((s "OPT"), AnObject); ((s "TypeEnum"), AnObject); ((s "Base"), AClass (s "atlas_doc_parser.mark_or_node") true); ((s "BaseNode"), AClass (s "atlas_doc_parser.mark_or_node") true); ((s "NodeInlineCardAttrs"), AClass (s "atlas_doc_parser.nodes.node_inline_card") true); ((s "NodeInlineCard"), AClass (s "atlas_doc_parser.nodes.node_inline_card") true); ((s "__name__"), AnObject); ((s "__doc__"), AnObject); ((s "__file__"), AnObject)]);
    ((s "atlas_doc_parser.nodes.node_list_item"), [((s "T"), AnObject); ((s "dataclasses"), AnObject); ((s "REQ"), AnObject); ((s "OPT"), AnObject); ((s "TypeEnum"), AnObject); ((s "Base"), AClass (s "atlas_doc_parser.mark_or_node") true); ((s "BaseNode"), AClass (s "atlas_doc_parser.mark_or_node") true); ((s "content_to_markdown"), AnObject); ((s "NodeListItemAttrs"), AClass (s "atlas_doc_parser.nodes.node_list_item") true); ((s "NodeListItem"), AClass (s "atlas_doc_parser.nodes.node_list_item") true); ((s "__name__"), AnObject); ((s "__doc__"), AnObject); ((s "__file__"), AnObject)]);
    ((s "atlas_doc_parser.nodes.node_media"), [((s "T"), AnObject); ((s "dataclasses"), AnObject); ((s "REQ"), AnObject); ((s "OPT"), AnObject); ((s "TypeEnum"), AnObject); ((s "Base"), AClass (s "atlas_doc_parser.mark_or_node") true); ((s "BaseNode"), AClass (s "atlas_doc_parser.mark_or_node") true); ((s "add_style_to_markdown"), AnObject); ((s "NodeMediaAttrs"), AClass (s "atlas_doc_parser.nodes.node_media") true); ((s "NodeMedia"), AClass (s "atlas_doc_parser.nodes.node_media") true); ((s "__name__"), AnObject); ((s "__doc__"), AnObject); ((s "__file__"), AnObject)]);
    ((s "atlas_doc_parser.nodes.node_media_group"), [((s "T"), AnObject); ((s "dataclasses"), AnObject); ((s "REQ"), AnObject); ((s "OPT"), AnObject); ((s "TypeEnum"), AnObject); ((s "BaseNode"), AClass (s "atlas_doc_parser.mark_or_node") true); ((s "NodeMediaGroup"), AClass (s "atlas_doc_parser.nodes.node_media_group") true); ((s "__name__"), AnObject); ((s "__doc__"), AnObject); ((s "__file__"), AnObject)]);
    ((s "atlas_doc_parser.nodes.node_media_inline"), [((s "T"), AnObject); ((s "dataclasses"), AnObject); ((s "REQ"), AnObject); ((s "OPT"), AnObject); ((s "TypeEnum"), AnObject); ((s "Base"), AClass (s "atlas_doc_parser.mark_or_node") true); ((s "BaseNode"), AClass (s "atlas_doc_parser.mark_or_node") true); ((s "NodeMediaInlineAttrs"), AClass (s "atlas_doc_parser.nodes.node_media_inline") true); ((s "NodeMediaInline"), AClass (s "atlas_doc_parser.nodes.node_media_inline") true); ((s "__name__"), AnObject); ((s "__doc__"), AnObject); ((s "__file__"), AnObject)]);
    ((s "atlas_doc_parser.nodes.node_media_single"), [((s "T"), AnObject); ((s "dataclasses"), AnObject); ((s "OPT"), AnObject); ((s "TypeEnum"), AnObject); ((s "Base"), AClass (s "atlas_doc_parser.mark_or_node") true); ((s "BaseNode"), AClass (s "atlas_doc_parser.mark_or_node") true); ((s "content_to_markdown"), AnObject); ((s "NodeMediaSingleAttrs"), AClass (s "atlas_doc_parser.nodes.node_media_single") true); ((s "NodeMediaSingle"), AClass (s "atlas_doc_parser.nodes.node_media_single") true); ((s "__name__"), AnObject); ((s "__doc__"), AnObject); ((s "__file__"), AnObject)]);
    ((s "atlas_doc_parser.nodes.node_mention"), [((s "T"), AnObject); ((s "dataclasses"), AnObject); ((s "REQ"), AnObject); ((s "OPT"), AnObject); ((s "TypeEnum"), AnObject); ((s "Base"), AClass (s "atlas_doc_parser.mark_or_node") true); ((s "BaseNode"), AClass (s "atlas_doc_parser.mark_or_node") true); ((s "NodeMentionAttrs"), AClass (s "atlas_doc_parser.nodes.node_mention") true); ((s "NodeMention"), AClass (s "atlas_doc_parser.nodes.node_mention") true); ((s "__name__"), AnObject); ((s "__doc__"), AnObject); ((s "__file__"), AnObject)]);
    ((s "atlas_doc_parser.nodes.node_nested_expand"), [((s "T"), AnObject); ((s "dataclasses"), AnObject); ((s "REQ"), AnObject); ((s "OPT"), AnObject); ((s "TypeEnum"), AnObject); ((s "Base"), AClass (s "atlas_doc_parser.mark_or_node") true); ((s "BaseNode"), AClass (s "atlas_doc_parser.mark_or_node") true); ((s "doc_content_to_markdown"), AnObject); ((s "NodeNestedExpandAttrs"), AClass (s "atlas_doc_parser.nodes.node_nested_expand") true); ((s "NodeNestedExpand"), AClass (s "atlas_doc_parser.nodes.node_nested_expand") true); ((s "__name__"), AnObject); ((s "__doc__"), AnObject); ((s "__file__"), AnObject)]);
    ((s "atlas_doc_parser.nodes.node_ordered_list"), [((s "T"), AnObject); ((s "dataclasses"), AnObject); ((s "REQ"), AnObject); ((s "OPT"), AnObject); ((s "TypeEnum"), AnObject); ((s "Base"), AClass (s "atlas_doc_parser.mark_or_node") true); ((s "BaseNode"), AClass (s "atlas_doc_parser.mark_or_node") true); ((s "NodeOrderedListAttrs"), AClass (s "atlas_doc_parser.nodes.node_ordered_list") true); ((s "NodeOrderedList"), AClass (s "atlas_doc_parser.nodes.node_ordered_list") true); ((s "__name__"), AnObject); ((s "__doc__"), AnObject); ((s "__file__"), AnObject)]);
    ((s "atlas_doc_parser.nodes.node_panel"), [((s "T"), AnObject); ((s "textwrap"), AnObject); ((s "dataclasses"), AnObject); ((s "REQ"), AnObject); ((s "OPT"), AnObject); ((s "TypeEnum"), AnObject); ((s "Base"), AClass (s "atlas_doc_parser.mark_or_node") true); ((s "BaseNode"), AClass (s "atlas_doc_parser.mark_or_node") true); ((s "strip_double_empty_line"), AnObject); ((s "doc_content_to_markdown"), AnObject); ((s "NodePanelAttrs"), AClass (s "atlas_doc_parser.nodes.node_panel") true); ((s "NodePanel"), AClass (s "atlas_doc_parser.nodes.node_panel") true); ((s "__name__"), AnObject); ((s "__doc__"), AnObject); ((s "__file__"), AnObject)]);
    ((s "atlas_doc_parser.nodes.node_paragraph"), [((s "T"), AnObject); ((s "dataclasses"), AnObject); ((s "OPT"), AnObject); ((s "TypeEnum"), AnObject); ((s "Base"), AClass (s "atlas_doc_parser.mark_or_node") true); ((s "BaseNode"), AClass (s "atlas_doc_parser.mark_or_node") true); ((s "BaseMark"), AClass (s "atlas_doc_parser.mark_or_node") true); ((s "content_to_markdown"), AnObject); ((s "add_style_to_markdown"), AnObject); ((s "NodeParagraphAttrs"), AClass (s "atlas_doc_parser.nodes.node_paragraph") true); ((s "NodeParagraph"), AClass (s "atlas_doc_parser.nodes.node_paragraph") true); ((s "__name__"), AnObject); ((s "__doc__"), AnObject); ((s "__file__"), AnObject)]);
    ((s "atlas_doc_parser.nodes.node_rule"), [((s "T"), AnObject); ((s "dataclasses"), AnObject); ((s "OPT"), AnObject); ((s "TypeEnum"), AnObject); ((s "Base"), AClass (s "atlas_doc_parser.mark_or_node") true); ((s "BaseNode"), AClass (s "atlas_doc_parser.mark_or_node") true); ((s "NodeRuleAttrs"), AClass (s "atlas_doc_parser.nodes.node_rule") true); ((s "NodeRule"), AClass (s "atlas_doc_parser.nodes.node_rule") true); ((s "__name__"), AnObject); ((s "__doc__"), AnObject); ((s "__file__"), AnObject)]);
    ((s "atlas_doc_parser.nodes.node_status"), [((s "T"), AnObject); ((s "dataclasses"), AnObject); ((s "REQ"), AnObject); ((s "OPT"), AnObject); ((s "TypeEnum"), AnObject); ((s "Base"), AClass (s "atlas_doc_parser.mark_or_node") true); ((s "BaseNode"), AClass (s "atlas_doc_parser.mark_or_node") true); ((s "NodeStatusAttrs"), AClass (s "atlas_doc_parser.nodes.node_status") true); ((s "NodeStatus"), AClass (s "atlas_doc_parser.nodes.node_status") true); ((s "__name__"), AnObject); ((s "__doc__"), AnObject); ((s "__file__"), AnObject)]);
    ((s "atlas_doc_parser.nodes.node_table"), [((s "T"), AnObject); ((s "dataclasses"), AnObject); ((s "REQ"), AnObject); ((s "OPT"), AnObject); ((s "TypeEnum"), AnObject); ((s "Base"), AClass (s "atlas_doc_parser.mark_or_node") true); ((s "BaseNode"), AClass (s "atlas_doc_parser.mark_or_node") true); ((s "NodeTableAttrs"), AClass (s "atlas_doc_parser.nodes.node_table") true); ((s "NodeTable"), AClass (s "atlas_doc_parser.nodes.node_table") true); ((s "__name__"), AnObject); ((s "__doc__"), AnObject); ((s "__file__"), AnObject)]);
    ((s "atlas_doc_parser.nodes.node_table_cell"), [((s "T"), AnObject); ((s "dataclasses"), AnObject); ((s "REQ"), AnObject); ((s "OPT"), AnObject); ((s "TypeEnum"), AnObject); ((s "Base"), AClass (s "atlas_doc_parser.mark_or_node") true); ((s "BaseNode"), AClass (s "atlas_doc_parser.mark_or_node") true); ((s "content_to_markdown"), AnObject); ((s "NodeTableCellAttrs"), AClass (s "atlas_doc_parser.nodes.node_table_cell") true); ((s "NodeTableCell"), AClass (s "atlas_doc_parser.nodes.node_table_cell") true); ((s "__name__"), AnObject); ((s "__doc__"), AnObject); ((s "__file__"), AnObject)]);
    ((s "atlas_doc_parser.nodes.node_table_header"), [((s "T"), AnObject); ((s "dataclasses"), AnObject); ((s "REQ"), AnObject); ((s "OPT"), AnObject); ((s "TypeEnum"), AnObject); ((s "Base"), AClass (s "atlas_doc_parser.mark_or_node") true); ((s "BaseNode"), AClass (s "atlas_doc_parser.mark_or_node") true); ((s "content_to_markdown"), AnObject); ((s "NodeTableHeaderAttrs"), AClass (s "atlas_doc_parser.nodes.node_table_header") true); ((s "NodeTableHeader"), AClass (s "atlas_doc_parser.nodes.node_table_header") true); ((s "__name__"), AnObject); ((s "__doc__"), AnObject); ((s "__file__"), AnObject)]);
    ((s "atlas_doc_parser.nodes.node_table_row"), [((s "T"), AnObject); ((s "dataclasses"), AnObject); ((s "REQ"), AnObject); ((s "OPT"), AnObject); ((s "TypeEnum"), AnObject); ((s "Base"), AClass (s "atlas_doc_parser.mark_or_node") true); ((s "BaseNode"), AClass (s "atlas_doc_parser.mark_or_node") true); ((s "NodeTableRowAttrs"), AClass (s "atlas_doc_parser.nodes.node_table_row") true); ((s "NodeTableRow"), AClass (s "atlas_doc_parser.nodes.node_table_row") true); ((s "__name__"), AnObject); ((s "__doc__"), AnObject); ((s "__file__"), AnObject)]);
    ((s "atlas_doc_parser.nodes.node_task_item"), [((s "T"), AnObject); ((s "dataclasses"), AnObject); ((s "REQ"), AnObject); ((s "OPT"), AnObject); ((s "TypeEnum"), AnObject); ((s "Base"), AClass (s "atlas_doc_parser.mark_or_node") true); ((s "BaseNode"), AClass (s "atlas_doc_parser.mark_or_node") true); ((s "content_to_markdown"), AnObject); ((s "NodeTaskItemAttrs"), AClass (s "atlas_doc_parser.nodes.node_task_item") true); ((s "NodeTaskItem"), AClass (s "atlas_doc_parser.nodes.node_task_item") true); ((s "__name__"), AnObject); ((s "__doc__"), AnObject); ((s "__file__"), AnObject)]);
    ((s "atlas_doc_parser.nodes.node_task_list"), [((s "T"), AnObject); ((s "dataclasses"), AnObject); ((s "REQ"), AnObject); ((s "OPT"), AnObject); ((s "TypeEnum"), AnObject); ((s "Base"), AClass (s "atlas_doc_parser.mark_or_node") true); ((s "BaseNode"), AClass (s "atlas_doc_parser.mark_or_node") true); ((s "NodeTaskListAttrs"), AClass (s "atlas_doc_parser.nodes.node_task_list") true); ((s "NodeTaskList"), AClass (s "atlas_doc_parser.nodes.node_task_list") true); ((s "__name__"), AnObject); ((s "__doc__"), AnObject); ((s "__file__"), AnObject)]);
    ((s "atlas_doc_parser.nodes.node_text"), [((s "T"), AnObject); ((s "dataclasses"), AnObject); ((s "REQ"), AnObject); ((s "OPT"), AnObject); ((s "TypeEnum"), AnObject); ((s "BaseNode"), AClass (s "atlas_doc_parser.mark_or_node") true); ((s "add_style_to_markdown"), AnObject); ((s "NodeText"), AClass (s "atlas_doc_parser.nodes.node_text") true); ((s "__name__"), AnObject); ((s "__doc__"), AnObject); ((s "__file__"), AnObject)]) ].
Definition repo_project : project :=
  Project [s "/"; s "repo"; s "atlas_doc_parser"] repo_marks repo_nodes
          (fun full => match lookup full repo_table with Some ms => Loaded ms | None => NoImport end).
(** /repo/atlas_doc_parser/api.py, line by line. *)
Definition api_py : str := text_lines
  [ "# -*- coding: utf-8 -*-";
    "";
    dquote ++ dquote ++ dquote;
    "Public API module for atlas_doc_parser.";
    "";
    "This file is auto-generated by gen_code.py. Do not edit manually.";
    dquote ++ dquote ++ dquote;
    "";
    "from .exc import ParamError";
    "from .exc import UnimplementedTypeError";
    "from .type_hint import T_DATA";
    "from .type_enum import TypeEnum";
    "from .constants import TAB";
    "from .logger import logger";
    "from .mark_or_node import Base";
    "from .mark_or_node import BaseMarkOrNode";
    "from .mark_or_node import BaseMark";
    "from .mark_or_node import T_MARK";
    "from .mark_or_node import BaseNode";
    "from .mark_or_node import T_NODE";
    "from .marks.parse_mark import parse_mark";
    "from .nodes.parse_node import parse_node";
    "";
    "# -----------------------------------------------------------------------------";
    "# Marks";
    "# -----------------------------------------------------------------------------";
    "from .marks.mark_alignment import MarkAlignment";
    "from .marks.mark_alignment import MarkAlignmentAttrs";
    "from .marks.mark_annotation import MarkAnnotation";
    "from .marks.mark_annotation import MarkAnnotationAttrs";
    "from .marks.mark_background_color import MarkBackgroundColor";
    "from .marks.mark_background_color import MarkBackgroundColorAttrs";
    "from .marks.mark_border import MarkBorder";
    "from .marks.mark_border import MarkBorderAttrs";
    "from .marks.mark_breakout import MarkBreakout";
    "from .marks.mark_breakout import MarkBreakoutAttrs";
    "from .marks.mark_code import MarkCode";
    "from .marks.mark_data_consumer import MarkDataConsumer";
    "from .marks.mark_data_consumer import MarkDataConsumerAttrs";
    "from .marks.mark_em import MarkEm";
    "from .marks.mark_fragment import MarkFragment";
    "from .marks.mark_fragment import MarkFragmentAttrs";
    "from .marks.mark_indentation import MarkIndentation";
    "from .marks.mark_indentation import MarkIndentationAttrs";
    "from .marks.mark_link import MarkLink";
    "from .marks.mark_link import MarkLinkAttrs";
    "from .marks.mark_strike import MarkStrike";
    "from .marks.mark_strong import MarkStrong";
    "from .marks.mark_subsup import MarkSubsup";
    "from .marks.mark_subsup import MarkSubsupAttrs";
    "from .marks.mark_text_color import MarkTextColor";
    "from .marks.mark_text_color import MarkTextColorAttrs";
    "from .marks.mark_underline import MarkUnderline";
    "";
    "# -----------------------------------------------------------------------------";
    "# Nodes";
    "# -----------------------------------------------------------------------------";
    "from .nodes.node_block_card import NodeBlockCard";
    "from .nodes.node_block_card import NodeBlockCardAttrs";
    "from .nodes.node_block_card import NodeBlockCardAttrsDatasource";
    "from .nodes.node_block_card import NodeBlockCardAttrsDatasourceView";
    "from .nodes.node_blockquote import NodeBlockquote";
    "from .nodes.node_blockquote import NodeBlockquoteAttrs";
    "from .nodes.node_bullet_list import NodeBulletList";
    "from .nodes.node_caption import NodeCaption";
    "from .nodes.node_caption import NodeCaptionAttrs";
    "from .nodes.node_code_block import NodeCodeBlock";
    "from .nodes.node_code_block import NodeCodeBlockAttrs";
    "from .nodes.node_date import NodeDate";
    "from .nodes.node_date import NodeDateAttrs";
    "from .nodes.node_decision_item import NodeDecisionItem";
    "from .nodes.node_decision_item import NodeDecisionItemAttrs";
    "from .nodes.node_decision_list import NodeDecisionList";
    "from .nodes.node_decision_list import NodeDecisionListAttrs";
    "from .nodes.node_doc import NodeDoc";
    "from .nodes.node_embed_card import NodeEmbedCard";
    "from .nodes.node_embed_card import NodeEmbedCardAttrs";
    "from .nodes.node_emoji import NodeEmoji";
    "from .nodes.node_emoji import NodeEmojiAttrs";
    "from .nodes.node_expand import NodeExpand";
    "from .nodes.node_expand import NodeExpandAttrs";
    "from .nodes.node_extension import NodeExtension";
    "from .nodes.node_extension import NodeExtensionAttrs";
    "from .nodes.node_hard_break import NodeHardBreak";
    "from .nodes.node_hard_break import NodeHardBreakAttrs";
    "from .nodes.node_heading import NodeHeading";
    "from .nodes.node_heading import NodeHeadingAttrs";
    "from .nodes.node_inline_card import NodeInlineCard";
    "from .nodes.node_inline_card import NodeInlineCardAttrs";
    "from .nodes.node_list_item import NodeListItem";
    "from .nodes.node_list_item import NodeListItemAttrs";
    "from .nodes.node_media import NodeMedia";
    "from .nodes.node_media import NodeMediaAttrs";
    "from .nodes.node_media_group import NodeMediaGroup";
    "from .nodes.node_media_inline import NodeMediaInline";
    "from .nodes.node_media_inline import NodeMediaInlineAttrs";
    "from .nodes.node_media_single import NodeMediaSingle";
    "from .nodes.node_media_single import NodeMediaSingleAttrs";
    "from .nodes.node_mention import NodeMention";
    "from .nodes.node_mention import NodeMentionAttrs";
    "from .nodes.node_nested_expand import NodeNestedExpand";
    "from .nodes.node_nested_expand import NodeNestedExpandAttrs";
    "from .nodes.node_ordered_list import NodeOrderedList";
    "from .nodes.node_ordered_list import NodeOrderedListAttrs";
    "from .nodes.node_panel import NodePanel";
    "from .nodes.node_panel import NodePanelAttrs";
    "from .nodes.node_paragraph import NodeParagraph";
    "from .nodes.node_paragraph import NodeParagraphAttrs";
    "from .nodes.node_rule import NodeRule";
    "from .nodes.node_rule import NodeRuleAttrs";
    "from .nodes.node_status import NodeStatus";
    "from .nodes.node_status import NodeStatusAttrs";
    "from .nodes.node_table import NodeTable";
    "from .nodes.node_table import NodeTableAttrs";
    "from .nodes.node_table_cell import NodeTableCell";
    "from .nodes.node_table_cell import NodeTableCellAttrs";
    "from .nodes.node_table_header import NodeTableHeader";
    "from .nodes.node_table_header import NodeTableHeaderAttrs";
    "from .nodes.node_table_row import NodeTableRow";
    "from .nodes.node_table_row import NodeTableRowAttrs";
    "from .nodes.node_task_item import NodeTaskItem";
    "from .nodes.node_task_item import NodeTaskItemAttrs";
    "from .nodes.node_task_list import NodeTaskList";
    "from .nodes.node_task_list import NodeTaskListAttrs";
    "from .nodes.node_text import NodeText" ]%string.
