(** Generated by tools/gen_report.py from scripts/s01-adf-json-schema-analysis/ADF-JSON-Schema-Analysis.md. Do not edit. *)
From Coq Require Import List NArith ZArith Bool String.
From Verif Require Import PyStr Values.
Import ListNotations.
Open Scope string_scope.
Open Scope list_scope.

(** The text of the committed report. *)
Definition committed_report : str := join nl (map s
  ["# ADF JSON Schema Analysis";
   "";
   "## Overview";
   "";
   "- Total definitions: 82";
   "- Node definitions (`*_node`): 62";
   "- Mark definitions (`*_mark`): 16";
   "- Other definitions: 4";
   "- Unique type enum values: 64";
   "";
   "## All Type Enum Values";
   "";
   "64 unique type values:";
   "";
   "- alignment";
   "- annotation";
   "- backgroundColor";
   "- blockCard";
   "- blockTaskItem";
   "- blockquote";
   "- bodiedExtension";
   "- bodiedSyncBlock";
   "- border";
   "- breakout";
   "- bulletList";
   "- caption";
   "- code";
   "- codeBlock";
   "- dataConsumer";
   "- date";
   "- decisionItem";
   "- decisionList";
   "- doc";
   "- em";
   "- embedCard";
   "- emoji";
   "- expand";
   "- extension";
   "- external";
   "- file";
   "- fragment";
   "- hardBreak";
   "- heading";
   "- image";
   "- indentation";
   "- inlineCard";
   "- inlineExtension";
   "- layoutColumn";
   "- layoutSection";
   "- link";
   "- listItem";
   "- media";
   "- mediaGroup";
   "- mediaInline";
   "- mediaSingle";
   "- mention";
   "- nestedExpand";
   "- orderedList";
   "- panel";
   "- paragraph";
   "- placeholder";
   "- rule";
   "- status";
   "- strike";
   "- strong";
   "- sub";
   "- subsup";
   "- sup";
   "- syncBlock";
   "- table";
   "- tableCell";
   "- tableHeader";
   "- tableRow";
   "- taskItem";
   "- taskList";
   "- text";
   "- textColor";
   "- underline";
   "";
   "## Implementation Order";
   "";
   "Nodes sorted by dependencies (implement dependencies first):";
   "";
   "1. **blockCard** - no dependencies";
   "2. **bodiedExtension** - depends on: dataConsumer, fragment";
   "3. **date** - no dependencies";
   "4. **embedCard** - no dependencies";
   "5. **emoji** - no dependencies";
   "6. **extension** - depends on: dataConsumer, fragment";
   "7. **hardBreak** - no dependencies";
   "8. **inlineCard** - no dependencies";
   "9. **inlineExtension** - depends on: dataConsumer, fragment";
   "10. **layoutColumn** - no dependencies";
   "11. **layoutSection** - depends on: breakout, layoutColumn";
   "12. **layoutSection_full** - depends on: breakout, layoutColumn, layoutSection";
   "13. **media** - depends on: annotation, border, link";
   "14. **mediaGroup** - depends on: media";
   "15. **mediaInline** - depends on: annotation, border, link";
   "16. **mediaSingle** - depends on: link";
   "17. **mediaSingle_full** - depends on: media, mediaSingle";
   "18. **mention** - no dependencies";
   "19. **nestedExpand** - no dependencies";
   "20. **expand** - depends on: nestedExpand";
   "21. **expand_root_only** - depends on: breakout, nestedExpand";
   "22. **placeholder** - no dependencies";
   "23. **rule** - no dependencies";
   "24. **status** - no dependencies";
   "25. **syncBlock** - depends on: breakout";
   "26. **table_cell** - no dependencies";
   "27. **table_header** - no dependencies";
   "28. **table_row** - depends on: table_cell, table_header";
   "29. **table** - depends on: fragment, table_row";
   "30. **text** - no dependencies";
   "31. **codeBlock** - depends on: text";
   "32. **codeBlock_root_only** - depends on: breakout, text";
   "33. **code_inline** - depends on: annotation, code, link, text";
   "34. **formatted_text_inline** - depends on: annotation, backgroundColor, em, link, strike, strong, subsup, text, textColor, underline";
   "35. **caption** - depends on: code_inline, date, emoji, formatted_text_inline, hardBreak, inlineCard, mention, placeholder, status";
   "36. **inline** - depends on: code_inline, date, emoji, formatted_text_inline, hardBreak, inlineCard, inlineExtension, mediaInline, mention, placeholder, status";
   "37. **decisionItem** - depends on: inline";
   "38. **decisionList** - depends on: decisionItem";
   "39. **heading** - depends on: alignment, indentation, inline";
   "40. **mediaSingle_caption** - depends on: caption, media, mediaSingle";
   "41. **paragraph** - depends on: alignment, indentation, inline";
   "42. **blockTaskItem** - depends on: extension, paragraph";
   "43. **taskItem** - depends on: inline";
   "44. **taskList** - depends on: blockTaskItem, taskItem";
   "45. **blockquote** - depends on: bulletList, codeBlock, extension, mediaGroup, mediaSingle_caption, mediaSingle_full, orderedList, paragraph";
   "46. **bodiedSyncBlock** - depends on: blockCard, blockquote, breakout, bulletList, codeBlock, decisionList, embedCard, expand, heading, layoutSection, layoutSection_full, mediaGroup, mediaSingle, mediaSingle_caption, mediaSingle_full, orderedList, panel, paragraph, rule, table, taskList";
   "47. **bulletList** - depends on: listItem";
   "48. **doc** - depends on: blockCard, blockquote, bodiedExtension, bodiedSyncBlock, bulletList, codeBlock, codeBlock_root_only, decisionList, embedCard, expand, expand_root_only, extension, heading, layoutSection_full, mediaGroup, mediaSingle_caption, mediaSingle_full, orderedList, panel, paragraph, rule, syncBlock, table, taskList";
   "49. **listItem** - depends on: bulletList, codeBlock, extension, mediaSingle_caption, mediaSingle_full, orderedList, paragraph, taskList";
   "50. **orderedList** - depends on: listItem";
   "51. **panel** - depends on: blockCard, bulletList, codeBlock, decisionList, extension, heading, mediaGroup, mediaSingle_caption, mediaSingle_full, orderedList, paragraph, rule, taskList";
   "";
   "## Mark Definitions";
   "";
   "16 mark types:";
   "";
   "- alignment";
   "- annotation";
   "- backgroundColor";
   "- border";
   "- breakout";
   "- code";
   "- dataConsumer";
   "- em";
   "- fragment";
   "- indentation";
   "- link";
   "- strike";
   "- strong";
   "- subsup";
   "- textColor";
   "- underline";
   "";
   "## Recommended Implementation Phases";
   "";
   "### Phase 1: Base Classes";
   "";
   "- Base";
   "- BaseNode";
   "- BaseMark";
   "";
   "### Phase 2: Marks";
   "";
   "No internal dependencies, can be implemented in any order:";
   "";
   "- MarkAlignment";
   "- MarkAnnotation";
   "- MarkBackgroundColor";
   "- MarkBorder";
   "- MarkBreakout";
   "- MarkCode";
   "- MarkDataConsumer";
   "- MarkEm";
   "- MarkFragment";
   "- MarkIndentation";
   "- MarkLink";
   "- MarkStrike";
   "- MarkStrong";
   "- MarkSubsup";
   "- MarkTextColor";
   "- MarkUnderline";
   "";
   "### Phase 3: Leaf Nodes";
   "";
   "Nodes with no node dependencies:";
   "";
   "- NodeBlockCard";
   "- NodeDate";
   "- NodeEmbedCard";
   "- NodeEmoji";
   "- NodeHardBreak";
   "- NodeInlineCard";
   "- NodeLayoutColumn";
   "- NodeMention";
   "- NodeNestedExpand";
   "- NodePlaceholder";
   "- NodeRule";
   "- NodeStatus";
   "- NodeTable_cell";
   "- NodeTable_header";
   "- NodeText";
   "";
   "### Phase 4: Composite Nodes";
   "";
   "Nodes with dependencies (implement in order):";
   "";
   "- NodeBodiedExtension - needs: dataConsumer, fragment";
   "- NodeExtension - needs: dataConsumer, fragment";
   "- NodeInlineExtension - needs: dataConsumer, fragment";
   "- NodeLayoutSection - needs: breakout, layoutColumn";
   "- NodeLayoutSection_full - needs: breakout, layoutColumn, layoutSection";
   "- NodeMedia - needs: annotation, border, link";
   "- NodeMediaGroup - needs: media";
   "- NodeMediaInline - needs: annotation, border, link";
   "- NodeMediaSingle - needs: link";
   "- NodeMediaSingle_full - needs: media, mediaSingle";
   "- NodeExpand - needs: nestedExpand";
   "- NodeExpand_root_only - needs: breakout, nestedExpand";
   "- NodeSyncBlock - needs: breakout";
   "- NodeTable_row - needs: table_cell, table_header";
   "- NodeTable - needs: fragment, table_row";
   "- NodeCodeBlock - needs: text";
   "- NodeCodeBlock_root_only - needs: breakout, text";
   "- NodeCode_inline - needs: annotation, code, link, text";
   "- NodeFormatted_text_inline - needs: annotation, backgroundColor, em, link, strike, strong, subsup, text, textColor, underline";
   "- NodeCaption - needs: code_inline, date, emoji, formatted_text_inline, hardBreak, inlineCard, mention, placeholder, status";
   "- NodeInline - needs: code_inline, date, emoji, formatted_text_inline, hardBreak, inlineCard, inlineExtension, mediaInline, mention, placeholder, status";
   "- NodeDecisionItem - needs: inline";
   "- NodeDecisionList - needs: decisionItem";
   "- NodeHeading - needs: alignment, indentation, inline";
   "- NodeMediaSingle_caption - needs: caption, media, mediaSingle";
   "- NodeParagraph - needs: alignment, indentation, inline";
   "- NodeBlockTaskItem - needs: extension, paragraph";
   "- NodeTaskItem - needs: inline";
   "- NodeTaskList - needs: blockTaskItem, taskItem";
   "- NodeBlockquote - needs: bulletList, codeBlock, extension, mediaGroup, mediaSingle_caption, mediaSingle_full, orderedList, paragraph";
   "- NodeBodiedSyncBlock - needs: blockCard, blockquote, breakout, bulletList, codeBlock, decisionList, embedCard, expand, heading, layoutSection, layoutSection_full, mediaGroup, mediaSingle, mediaSingle_caption, mediaSingle_full, orderedList, panel, paragraph, rule, table, taskList";
   "- NodeBulletList - needs: listItem";
   "- NodeDoc - needs: blockCard, blockquote, bodiedExtension, bodiedSyncBlock, bulletList, codeBlock, codeBlock_root_only, decisionList, embedCard, expand, expand_root_only, extension, heading, layoutSection_full, mediaGroup, mediaSingle_caption, mediaSingle_full, orderedList, panel, paragraph, rule, syncBlock, table, taskList";
   "- NodeListItem - needs: bulletList, codeBlock, extension, mediaSingle_caption, mediaSingle_full, orderedList, paragraph, taskList";
   "- NodeOrderedList - needs: listItem";
   "- NodePanel - needs: blockCard, bulletList, codeBlock, decisionList, extension, heading, mediaGroup, mediaSingle_caption, mediaSingle_full, orderedList, paragraph, rule, taskList"]%string).

(** The entries under "Implementation Order": name and dependencies. *)
Definition committed_order : list (str * list str) := map (fun e => (s (fst e), map s (snd e)))
  [("blockCard", []);
   ("bodiedExtension", ["dataConsumer"; "fragment"]);
   ("date", []);
   ("embedCard", []);
   ("emoji", []);
   ("extension", ["dataConsumer"; "fragment"]);
   ("hardBreak", []);
   ("inlineCard", []);
   ("inlineExtension", ["dataConsumer"; "fragment"]);
   ("layoutColumn", []);
   ("layoutSection", ["breakout"; "layoutColumn"]);
   ("layoutSection_full", ["breakout"; "layoutColumn"; "layoutSection"]);
   ("media", ["annotation"; "border"; "link"]);
   ("mediaGroup", ["media"]);
   ("mediaInline", ["annotation"; "border"; "link"]);
   ("mediaSingle", ["link"]);
   ("mediaSingle_full", ["media"; "mediaSingle"]);
   ("mention", []);
   ("nestedExpand", []);
   ("expand", ["nestedExpand"]);
   ("expand_root_only", ["breakout"; "nestedExpand"]);
   ("placeholder", []);
   ("rule", []);
   ("status", []);
   ("syncBlock", ["breakout"]);
   ("table_cell", []);
   ("table_header", []);
   ("table_row", ["table_cell"; "table_header"]);
   ("table", ["fragment"; "table_row"]);
   ("text", []);
   ("codeBlock", ["text"]);
   ("codeBlock_root_only", ["breakout"; "text"]);
   ("code_inline", ["annotation"; "code"; "link"; "text"]);
   ("formatted_text_inline", ["annotation"; "backgroundColor"; "em"; "link"; "strike"; "strong"; "subsup"; "text"; "textColor"; "underline"]);
   ("caption", ["code_inline"; "date"; "emoji"; "formatted_text_inline"; "hardBreak"; "inlineCard"; "mention"; "placeholder"; "status"]);
   ("inline", ["code_inline"; "date"; "emoji"; "formatted_text_inline"; "hardBreak"; "inlineCard"; "inlineExtension"; "mediaInline"; "mention"; "placeholder"; "status"]);
   ("decisionItem", ["inline"]);
   ("decisionList", ["decisionItem"]);
   ("heading", ["alignment"; "indentation"; "inline"]);
   ("mediaSingle_caption", ["caption"; "media"; "mediaSingle"]);
   ("paragraph", ["alignment"; "indentation"; "inline"]);
   ("blockTaskItem", ["extension"; "paragraph"]);
   ("taskItem", ["inline"]);
   ("taskList", ["blockTaskItem"; "taskItem"]);
   ("blockquote", ["bulletList"; "codeBlock"; "extension"; "mediaGroup"; "mediaSingle_caption"; "mediaSingle_full"; "orderedList"; "paragraph"]);
   ("bodiedSyncBlock", ["blockCard"; "blockquote"; "breakout"; "bulletList"; "codeBlock"; "decisionList"; "embedCard"; "expand"; "heading"; "layoutSection"; "layoutSection_full"; "mediaGroup"; "mediaSingle"; "mediaSingle_caption"; "mediaSingle_full"; "orderedList"; "panel"; "paragraph"; "rule"; "table"; "taskList"]);
   ("bulletList", ["listItem"]);
   ("doc", ["blockCard"; "blockquote"; "bodiedExtension"; "bodiedSyncBlock"; "bulletList"; "codeBlock"; "codeBlock_root_only"; "decisionList"; "embedCard"; "expand"; "expand_root_only"; "extension"; "heading"; "layoutSection_full"; "mediaGroup"; "mediaSingle_caption"; "mediaSingle_full"; "orderedList"; "panel"; "paragraph"; "rule"; "syncBlock"; "table"; "taskList"]);
   ("listItem", ["bulletList"; "codeBlock"; "extension"; "mediaSingle_caption"; "mediaSingle_full"; "orderedList"; "paragraph"; "taskList"]);
   ("orderedList", ["listItem"]);
   ("panel", ["blockCard"; "bulletList"; "codeBlock"; "decisionList"; "extension"; "heading"; "mediaGroup"; "mediaSingle_caption"; "mediaSingle_full"; "orderedList"; "paragraph"; "rule"; "taskList"])]%string.

Definition ref (x : string) : value := VDict [(s "$ref", VStr (s ("#/definitions/" ++ x)%string))].
Definition sample_definitions : list (str * value) :=
  [(s "other0", VDict [(s "type", VDict [(s "enum", VList (map (fun x => VStr (s x)) ["alignment"; "blockTaskItem"; "border"; "code"; "decisionItem"; "embedCard"; "external"; "heading"; "inlineExtension"; "listItem"; "mediaSingle"; "panel"; "status"; "subsup"; "tableCell"; "taskList"]))])]);
   (s "blockCard_with_variant0_node", VDict []);
   (s "panel_node", VDict [(s "anyOf", VList [ref "taskList_node"; ref "rule_node"; ref "paragraph_node"; ref "orderedList_node"; ref "mediaSingle_full_node"; ref "mediaSingle_caption_node"; ref "mediaGroup_node"; ref "heading_node"; ref "extension_node"; ref "decisionList_node"; ref "codeBlock_node"; ref "bulletList_node"; ref "blockCard_node"])]);
   (s "orderedList_node", VDict [(s "anyOf", VList [ref "listItem_node"])]);
   (s "bodiedExtension_with_variant1_node", VDict []);
   (s "listItem_node", VDict [(s "anyOf", VList [ref "taskList_node"; ref "paragraph_node"; ref "orderedList_node"; ref "mediaSingle_full_node"; ref "mediaSingle_caption_node"; ref "extension_node"; ref "codeBlock_node"; ref "bulletList_node"])]);
   (s "alignment_mark", VDict []);
   (s "other1", VDict [(s "type", VDict [(s "enum", VList (map (fun x => VStr (s x)) ["annotation"; "blockquote"; "breakout"; "codeBlock"; "decisionList"; "emoji"; "file"; "image"; "layoutColumn"; "media"; "mention"; "paragraph"; "strike"; "sup"; "tableHeader"; "text"]))])]);
   (s "annotation_mark", VDict []);
   (s "backgroundColor_mark", VDict []);
   (s "border_mark", VDict []);
   (s "breakout_mark", VDict []);
   (s "code_mark", VDict []);
   (s "dataConsumer_mark", VDict []);
   (s "other2", VDict [(s "type", VDict [(s "enum", VList (map (fun x => VStr (s x)) ["backgroundColor"; "bodiedExtension"; "bulletList"; "dataConsumer"; "doc"; "expand"; "fragment"; "indentation"; "layoutSection"; "mediaGroup"; "nestedExpand"; "placeholder"; "strong"; "syncBlock"; "tableRow"; "textColor"]))])]);
   (s "em_mark", VDict []);
   (s "fragment_mark", VDict []);
   (s "indentation_mark", VDict []);
   (s "link_mark", VDict []);
   (s "strike_mark", VDict []);
   (s "strong_mark", VDict []);
   (s "other3", VDict [(s "type", VDict [(s "enum", VList (map (fun x => VStr (s x)) ["blockCard"; "bodiedSyncBlock"; "caption"; "date"; "em"; "extension"; "hardBreak"; "inlineCard"; "link"; "mediaInline"; "orderedList"; "rule"; "sub"; "table"; "taskItem"; "underline"]))])]);
   (s "subsup_mark", VDict []);
   (s "textColor_mark", VDict []);
   (s "underline_mark", VDict []);
   (s "doc_node", VDict [(s "anyOf", VList [ref "taskList_node"; ref "table_node"; ref "syncBlock_node"; ref "rule_node"; ref "paragraph_node"; ref "panel_node"; ref "orderedList_node"; ref "mediaSingle_full_node"; ref "mediaSingle_caption_node"; ref "mediaGroup_node"; ref "layoutSection_full_node"; ref "heading_node"; ref "extension_node"; ref "expand_root_only_node"; ref "expand_node"; ref "embedCard_node"; ref "decisionList_node"; ref "codeBlock_root_only_node"; ref "codeBlock_node"; ref "bulletList_node"; ref "bodiedSyncBlock_node"; ref "bodiedExtension_node"; ref "blockquote_node"; ref "blockCard_node"])]);
   (s "date_with_variant2_node", VDict []);
   (s "bulletList_node", VDict [(s "anyOf", VList [ref "listItem_node"])]);
   (s "bodiedSyncBlock_node", VDict [(s "anyOf", VList [ref "taskList_node"; ref "table_node"; ref "rule_node"; ref "paragraph_node"; ref "panel_node"; ref "orderedList_node"; ref "mediaSingle_full_node"; ref "mediaSingle_caption_node"; ref "mediaSingle_node"; ref "mediaGroup_node"; ref "layoutSection_full_node"; ref "layoutSection_node"; ref "heading_node"; ref "expand_node"; ref "embedCard_node"; ref "decisionList_node"; ref "codeBlock_node"; ref "bulletList_node"; ref "breakout_mark"; ref "blockquote_node"; ref "blockCard_node"])]);
   (s "embedCard_with_variant3_node", VDict []);
   (s "blockquote_node", VDict [(s "anyOf", VList [ref "paragraph_node"; ref "orderedList_node"; ref "mediaSingle_full_node"; ref "mediaSingle_caption_node"; ref "mediaGroup_node"; ref "extension_node"; ref "codeBlock_node"; ref "bulletList_node"])]);
   (s "taskList_node", VDict [(s "anyOf", VList [ref "taskItem_node"; ref "blockTaskItem_node"])]);
   (s "emoji_with_variant4_node", VDict []);
   (s "taskItem_node", VDict [(s "anyOf", VList [ref "inline_node"])]);
   (s "blockTaskItem_node", VDict [(s "anyOf", VList [ref "paragraph_node"; ref "extension_node"])]);
   (s "extension_with_variant5_node", VDict []);
   (s "paragraph_node", VDict [(s "anyOf", VList [ref "inline_node"; ref "indentation_mark"; ref "alignment_mark"])]);
   (s "mediaSingle_caption_node", VDict [(s "anyOf", VList [ref "mediaSingle_node"; ref "media_node"; ref "caption_node"])]);
   (s "hardBreak_with_variant6_node", VDict []);
   (s "heading_node", VDict [(s "anyOf", VList [ref "inline_node"; ref "indentation_mark"; ref "alignment_mark"])]);
   (s "decisionList_node", VDict [(s "anyOf", VList [ref "decisionItem_node"])]);
   (s "inlineCard_with_variant7_node", VDict []);
   (s "decisionItem_node", VDict [(s "anyOf", VList [ref "inline_node"])]);
   (s "inline_node", VDict [(s "anyOf", VList [ref "status_node"; ref "placeholder_node"; ref "mention_node"; ref "mediaInline_node"; ref "inlineExtension_node"; ref "inlineCard_node"; ref "hardBreak_node"; ref "formatted_text_inline_node"; ref "emoji_node"; ref "date_node"; ref "code_inline_node"])]);
   (s "inlineExtension_with_variant8_node", VDict []);
   (s "caption_node", VDict [(s "anyOf", VList [ref "status_node"; ref "placeholder_node"; ref "mention_node"; ref "inlineCard_node"; ref "hardBreak_node"; ref "formatted_text_inline_node"; ref "emoji_node"; ref "date_node"; ref "code_inline_node"])]);
   (s "formatted_text_inline_node", VDict [(s "anyOf", VList [ref "underline_mark"; ref "textColor_mark"; ref "text_node"; ref "subsup_mark"; ref "strong_mark"; ref "strike_mark"; ref "link_mark"; ref "em_mark"; ref "backgroundColor_mark"; ref "annotation_mark"])]);
   (s "layoutColumn_with_variant9_node", VDict []);
   (s "code_inline_node", VDict [(s "anyOf", VList [ref "text_node"; ref "link_mark"; ref "code_mark"; ref "annotation_mark"])]);
   (s "codeBlock_root_only_node", VDict [(s "anyOf", VList [ref "text_node"; ref "breakout_mark"])]);
   (s "layoutSection_with_variant10_node", VDict []);
   (s "codeBlock_node", VDict [(s "anyOf", VList [ref "text_node"])]);
   (s "text_node", VDict [(s "anyOf", VList [])]);
   (s "table_node", VDict [(s "anyOf", VList [ref "table_row_node"; ref "fragment_mark"])]);
   (s "table_row_node", VDict [(s "anyOf", VList [ref "table_header_node"; ref "table_cell_node"])]);
   (s "table_header_node", VDict [(s "anyOf", VList [])]);
   (s "table_cell_node", VDict [(s "anyOf", VList [])]);
   (s "syncBlock_node", VDict [(s "anyOf", VList [ref "breakout_mark"])]);
   (s "status_node", VDict [(s "anyOf", VList [])]);
   (s "rule_node", VDict [(s "anyOf", VList [])]);
   (s "placeholder_node", VDict [(s "anyOf", VList [])]);
   (s "expand_root_only_node", VDict [(s "anyOf", VList [ref "nestedExpand_node"; ref "breakout_mark"])]);
   (s "expand_node", VDict [(s "anyOf", VList [ref "nestedExpand_node"])]);
   (s "nestedExpand_node", VDict [(s "anyOf", VList [])]);
   (s "mention_node", VDict [(s "anyOf", VList [])]);
   (s "mediaSingle_full_node", VDict [(s "anyOf", VList [ref "mediaSingle_node"; ref "media_node"])]);
   (s "mediaSingle_node", VDict [(s "anyOf", VList [ref "link_mark"])]);
   (s "mediaInline_node", VDict [(s "anyOf", VList [ref "link_mark"; ref "border_mark"; ref "annotation_mark"])]);
   (s "mediaGroup_node", VDict [(s "anyOf", VList [ref "media_node"])]);
   (s "media_node", VDict [(s "anyOf", VList [ref "link_mark"; ref "border_mark"; ref "annotation_mark"])]);
   (s "layoutSection_full_node", VDict [(s "anyOf", VList [ref "layoutSection_node"; ref "layoutColumn_node"; ref "breakout_mark"])]);
   (s "layoutSection_node", VDict [(s "anyOf", VList [ref "layoutColumn_node"; ref "breakout_mark"])]);
   (s "layoutColumn_node", VDict [(s "anyOf", VList [])]);
   (s "inlineExtension_node", VDict [(s "anyOf", VList [ref "fragment_mark"; ref "dataConsumer_mark"])]);
   (s "inlineCard_node", VDict [(s "anyOf", VList [])]);
   (s "hardBreak_node", VDict [(s "anyOf", VList [])]);
   (s "extension_node", VDict [(s "anyOf", VList [ref "fragment_mark"; ref "dataConsumer_mark"])]);
   (s "emoji_node", VDict [(s "anyOf", VList [])]);
   (s "embedCard_node", VDict [(s "anyOf", VList [])]);
   (s "date_node", VDict [(s "anyOf", VList [])]);
   (s "bodiedExtension_node", VDict [(s "anyOf", VList [ref "fragment_mark"; ref "dataConsumer_mark"])]);
   (s "blockCard_node", VDict [(s "anyOf", VList [])])].
