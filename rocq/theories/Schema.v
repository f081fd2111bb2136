(** The type enumeration, the two registries and the dataclass field tables. *)
From Coq Require Import List NArith ZArith Bool String.
From Verif Require Import PyStr Values.
Import ListNotations.
Open Scope list_scope.
Open Scope string_scope.

(** How a dataclass field is declared: [= REQ], no default at all, or [= OPT]. *)
Inductive fkind := Req | Pos | Opt.

(** ---------------------------------------------------------------- marks *)
(** marks/parse_mark.py:42-59, MARK_TYPE_TO_CLASS_MAPPING. *)
Inductive mkind :=
| MbackgroundColor | Mcode | Mem | Mlink | Mstrike | Mstrong | Msubsup | MtextColor
| Munderline | Mannotation | Mindentation | Mborder | Malignment | Mbreakout
| MdataConsumer | Mfragment.

Definition all_mkinds : list mkind :=
  [MbackgroundColor; Mcode; Mem; Mlink; Mstrike; Mstrong; Msubsup; MtextColor;
   Munderline; Mannotation; Mindentation; Mborder; Malignment; Mbreakout;
   MdataConsumer; Mfragment].

(** The registry key (= the default of the class's [type] field, marks/mark_*.py). *)
Definition mk_name (k : mkind) : str :=
  s match k with
    | MbackgroundColor => "backgroundColor" | Mcode => "code" | Mem => "em"
    | Mlink => "link" | Mstrike => "strike" | Mstrong => "strong" | Msubsup => "subsup"
    | MtextColor => "textColor" | Munderline => "underline" | Mannotation => "annotation"
    | Mindentation => "indentation" | Mborder => "border" | Malignment => "alignment"
    | Mbreakout => "breakout" | MdataConsumer => "dataConsumer" | Mfragment => "fragment"
    end.

(** The fields of the class's Attrs dataclass; [None] when the mark has no [attrs]
    field.  Every mark class that has [attrs] declares it [= REQ]. *)
Definition mk_attrs (k : mkind) : option (list (str * fkind)) :=
  match k with
  | MbackgroundColor => Some [(s "color", Pos)]                  (* mark_background_color.py:15 *)
  | Mlink => Some [(s "href", Req); (s "title", Opt); (s "id", Opt);
                   (s "collection", Opt); (s "occurrenceKey", Opt)]  (* mark_link.py:23-27 *)
  | Msubsup => Some [(s "type", Req)]                            (* mark_subsup.py:20 *)
  | MtextColor => Some [(s "color", Pos)]                        (* mark_text_color.py:15 *)
  | Mannotation => Some [(s "id", Req); (s "annotationType", Req)] (* mark_annotation.py:29-30 *)
  | Mindentation => Some [(s "level", Req)]                      (* mark_indentation.py:19 *)
  | Mborder => Some [(s "size", Req); (s "color", Req)]          (* mark_border.py:20-21 *)
  | Malignment => Some [(s "align", Pos)]                        (* mark_alignment.py:21 *)
  | Mbreakout => Some [(s "mode", Pos); (s "width", Opt)]        (* mark_breakout.py:21-22 *)
  | MdataConsumer => Some [(s "sources", Pos)]                   (* mark_data_consumer.py:19 *)
  | Mfragment => Some [(s "localId", Pos); (s "name", Opt)]      (* mark_fragment.py:20-21 *)
  | Mcode | Mem | Mstrike | Mstrong | Munderline => None
  end.

(** ---------------------------------------------------------------- nodes *)
(** nodes/parse_node.py:61-97, NODE_TYPE_TO_CLASS_MAPPING. *)
Inductive nkind :=
| Kdoc | Ktext | Krule | KlistItem | KbulletList | KorderedList | Kparagraph
| KtaskItem | KtaskList | KdecisionItem | KdecisionList | Kemoji | KhardBreak
| Kdate | Kmention | Kstatus | Kheading | KcodeBlock | KinlineCard | KblockCard
| Kmedia | KmediaGroup | KmediaSingle | KembedCard | Kextension | Kcaption
| KmediaInline | Kpanel | Kblockquote | Kexpand | KnestedExpand | KtableCell
| KtableHeader | KtableRow | Ktable.

Definition all_nkinds : list nkind :=
  [Kdoc; Ktext; Krule; KlistItem; KbulletList; KorderedList; Kparagraph;
   KtaskItem; KtaskList; KdecisionItem; KdecisionList; Kemoji; KhardBreak;
   Kdate; Kmention; Kstatus; Kheading; KcodeBlock; KinlineCard; KblockCard;
   Kmedia; KmediaGroup; KmediaSingle; KembedCard; Kextension; Kcaption;
   KmediaInline; Kpanel; Kblockquote; Kexpand; KnestedExpand; KtableCell;
   KtableHeader; KtableRow; Ktable].

Definition nk_name (k : nkind) : str :=
  s match k with
    | Kdoc => "doc" | Ktext => "text" | Krule => "rule" | KlistItem => "listItem"
    | KbulletList => "bulletList" | KorderedList => "orderedList"
    | Kparagraph => "paragraph" | KtaskItem => "taskItem" | KtaskList => "taskList"
    | KdecisionItem => "decisionItem" | KdecisionList => "decisionList"
    | Kemoji => "emoji" | KhardBreak => "hardBreak" | Kdate => "date"
    | Kmention => "mention" | Kstatus => "status" | Kheading => "heading"
    | KcodeBlock => "codeBlock" | KinlineCard => "inlineCard" | KblockCard => "blockCard"
    | Kmedia => "media" | KmediaGroup => "mediaGroup" | KmediaSingle => "mediaSingle"
    | KembedCard => "embedCard" | Kextension => "extension" | Kcaption => "caption"
    | KmediaInline => "mediaInline" | Kpanel => "panel" | Kblockquote => "blockquote"
    | Kexpand => "expand" | KnestedExpand => "nestedExpand" | KtableCell => "tableCell"
    | KtableHeader => "tableHeader" | KtableRow => "tableRow" | Ktable => "table"
    end.

(** [blockCard.attrs.datasource] is annotated with a dataclass but Base.from_dict stores
    the raw dictionary (mark_or_node.py:81-88), so it is an ordinary attribute here.

    The dataclass fields of a node class, in dataclass order:
    type, version | text, attrs, content, marks.  [type] always has a default. *)
Record nclass := NClass {
  nc_version : bool;                                   (* [version: int = 1], node_doc.py:57 *)
  nc_text : bool;                                      (* [text: str = REQ], node_text.py:37 *)
  nc_attrs : option (fkind * list (str * fkind));
  nc_content : option fkind;
  nc_marks : option fkind }.

Definition mk_nclass (a : option (fkind * list (str * fkind))) (c m : option fkind) : nclass :=
  NClass false false a c m.

Definition lid : str * fkind := (s "localId", Opt).

Definition nk_class (k : nkind) : nclass :=
  match k with
  | Kdoc => NClass true false None (Some Req) None                       (* node_doc.py:57-79 *)
  | Ktext => NClass false true None None (Some Opt)                      (* node_text.py:36-50 *)
  | Krule => mk_nclass (Some (Opt, [lid])) None None                     (* node_rule.py:20,35-36 *)
  | KlistItem => mk_nclass (Some (Opt, [lid])) (Some Req) None           (* node_list_item.py:30,43-55 *)
  | KbulletList => mk_nclass None (Some Req) None                        (* node_bullet_list.py:26-27 *)
  | KorderedList => mk_nclass (Some (Opt, [(s "order", Opt); lid])) (Some Req) None
                                                                         (* node_ordered_list.py:25-26,41-43 *)
  | Kparagraph => mk_nclass (Some (Opt, [lid])) (Some Opt) (Some Opt)    (* node_paragraph.py:35,49-70 *)
  | KtaskItem => mk_nclass (Some (Req, [(s "localId", Req); (s "state", Req)])) (Some Opt) None
                                                                         (* node_task_item.py:34-35,48-63 *)
  | KtaskList => mk_nclass (Some (Req, [(s "localId", Req)])) (Some Req) None
                                                                         (* node_task_list.py:24,37-45 *)
  | KdecisionItem => mk_nclass (Some (Req, [(s "localId", Req); (s "state", Req)])) (Some Opt) None
                                                                         (* node_decision_item.py:34-35,47-62 *)
  | KdecisionList => mk_nclass (Some (Req, [(s "localId", Req)])) (Some Req) None
                                                                         (* node_decision_list.py:23,35-37 *)
  | Kemoji => mk_nclass (Some (Req, [(s "shortName", Req); (s "id", Opt); (s "text", Opt); lid])) None None
                                                                         (* node_emoji.py:26-29,47-48 *)
  | KhardBreak => mk_nclass (Some (Opt, [(s "text", Opt); lid])) None None (* node_hard_break.py:21-22,36-37 *)
  | Kdate => mk_nclass (Some (Req, [(s "timestamp", Req); lid])) None None (* node_date.py:21-22,40-41 *)
  | Kmention => mk_nclass (Some (Req, [(s "id", Req); lid; (s "text", Opt);
                                       (s "accessLevel", Opt); (s "userType", Opt)])) None None
                                                                         (* node_mention.py:27-31,47-48 *)
  | Kstatus => mk_nclass (Some (Req, [(s "text", Req); (s "color", Req); lid; (s "style", Opt)])) None None
                                                                         (* node_status.py:24-27,44-45 *)
  | Kheading => mk_nclass (Some (Req, [(s "level", Req); lid])) (Some Opt) (Some Opt)
                                                                         (* node_heading.py:37-38,54-75 *)
  | KcodeBlock => mk_nclass (Some (Opt, [(s "language", Opt); (s "uniqueId", Opt); lid])) (Some Opt) None
                                                                         (* node_code_block.py:31-33,50-52 *)
  | KinlineCard => mk_nclass (Some (Req, [(s "url", Opt); (s "data", Opt); lid])) None None
                                                                         (* node_inline_card.py:24-26,45-46 *)
  | KblockCard => mk_nclass (Some (Req, [(s "url", Opt); lid; (s "datasource", Opt); (s "width", Opt);
                                         (s "layout", Opt); (s "data", Opt)])) None None
                                                                         (* node_block_card.py:71-76,92-93 *)
  | Kmedia => mk_nclass (Some (Req, [(s "type", Req); (s "id", Opt); (s "collection", Opt); (s "url", Opt);
                                     lid; (s "alt", Opt); (s "width", Opt); (s "height", Opt);
                                     (s "occurrenceKey", Opt)])) None (Some Opt)
                                                                         (* node_media.py:42-50,81-89 *)
  | KmediaGroup => mk_nclass None (Some Req) None                        (* node_media_group.py:28-29 *)
  | KmediaSingle => mk_nclass (Some (Opt, [(s "layout", Opt); (s "width", Opt); (s "widthType", Opt); lid]))
                              (Some Opt) (Some Opt)                      (* node_media_single.py:41-52,78-81 *)
  | KembedCard => mk_nclass (Some (Req, [(s "url", Req); (s "layout", Req); (s "width", Opt);
                                         (s "originalHeight", Opt); (s "originalWidth", Opt); lid])) None None
                                                                         (* node_embed_card.py:26-39,56-57 *)
  | Kextension => mk_nclass (Some (Req, [(s "extensionKey", Req); (s "extensionType", Req);
                                         (s "parameters", Opt); (s "text", Opt); (s "layout", Opt); lid]))
                            None (Some Opt)                              (* node_extension.py:29-34,58-60 *)
  | Kcaption => mk_nclass (Some (Opt, [lid])) (Some Opt) None            (* node_caption.py:30,43-56 *)
  | KmediaInline => mk_nclass (Some (Req, [(s "id", Req); (s "collection", Req); (s "type", Opt); lid;
                                           (s "alt", Opt); (s "occurrenceKey", Opt); (s "width", Opt);
                                           (s "height", Opt); (s "data", Opt)])) None (Some Opt)
                                                                         (* node_media_inline.py:33-41,55-63 *)
  | Kpanel => mk_nclass (Some (Req, [(s "panelType", Req); (s "panelIcon", Opt); (s "panelIconId", Opt);
                                     (s "panelIconText", Opt); (s "panelColor", Opt); lid])) (Some Req) None
                                                                         (* node_panel.py:43-56,80-97 *)
  | Kblockquote => mk_nclass (Some (Opt, [lid])) (Some Req) None         (* node_blockquote.py:31,46-58 *)
  | Kexpand => mk_nclass (Some (Opt, [(s "title", Opt); lid])) (Some Req) None (* node_expand.py:41-42,59-81 *)
  | KnestedExpand => mk_nclass (Some (Req, [(s "title", Opt); lid])) (Some Req) None
                                                                         (* node_nested_expand.py:37-38,60-78 *)
  | KtableCell | KtableHeader =>
      mk_nclass (Some (Opt, [(s "colspan", Opt); (s "rowspan", Opt); (s "colwidth", Opt);
                             (s "background", Opt); lid])) (Some Req) None
                                                                         (* node_table_cell.py:43-47,62-83, node_table_header.py:43-47,61-82 *)
  | KtableRow => mk_nclass (Some (Opt, [lid])) (Some Req) None           (* node_table_row.py:24,41-48 *)
  | Ktable => mk_nclass (Some (Opt, [(s "displayMode", Opt); (s "isNumberColumnEnabled", Opt);
                                     (s "layout", Opt); lid; (s "width", Opt)])) (Some Req) (Some Opt)
                                                                         (* node_table.py:32-43,67-70 *)
  end.

(** ---------------------------------------------------------------- TypeEnum *)
(** type_enum.py:90-156: every member's value equals its name. *)
Definition type_enum : list str := map s
  ["alignment"; "annotation"; "backgroundColor"; "border"; "breakout"; "code"; "em";
   "indentation"; "link"; "strike"; "strong"; "subsup"; "textColor"; "underline";
   "blockCard"; "blockTaskItem"; "blockquote"; "bodiedExtension"; "bodiedSyncBlock";
   "bulletList"; "caption"; "codeBlock"; "dataConsumer"; "date"; "decisionItem";
   "decisionList"; "doc"; "embedCard"; "emoji"; "expand"; "extension"; "external"; "file";
   "fragment"; "hardBreak"; "heading"; "image"; "inlineCard"; "inlineExtension";
   "layoutColumn"; "layoutSection"; "listItem"; "media"; "mediaGroup"; "mediaInline";
   "mediaSingle"; "mention"; "nestedExpand"; "orderedList"; "panel"; "paragraph";
   "placeholder"; "rule"; "status"; "sub"; "sup"; "syncBlock"; "table"; "tableCell";
   "tableHeader"; "tableRow"; "taskItem"; "taskList"; "text"].

(** [MAPPING[type_]] of parse_node.py:110 / parse_mark.py:72: dictionary lookup.
    An unhashable key (list, dict) raises TypeError; any hashable non-member KeyError. *)
Inductive found (A : Type) := Found (a : A) | Missing | Unhashable.
Arguments Found {A} a. Arguments Missing {A}. Arguments Unhashable {A}.

Definition registry_get {A} (name : A -> str) (all : list A) (ty : value) : found A :=
  match ty with
  | VStr x => match find (fun k => str_eqb (name k) x) all with Some k => Found k | None => Missing end
  | VList _ | VDict _ => Unhashable
  | _ => Missing
  end.
Definition node_class_of (ty : value) : found nkind := registry_get nk_name all_nkinds ty.
Definition mark_class_of (ty : value) : found mkind := registry_get mk_name all_mkinds ty.
