{"id": "C01", "title": "Unknown keys never influence parsing", "statement": "Removing from an ADF element dictionary, at any nesting depth, every key that the class selected for that element does not declare (and, for attrs, every key the Attrs class does not declare) changes nothing observable: parse_node / K.from_dict returns the same object, raises the same exception and logs the same warnings. The only keys that matter besides declared fields are 'content' and 'marks', which are walked even on classes that do not declare them.", "quantifier": "every JSON-like value, every class, every depth, every extra key/value", "why_tests_cant": "The set of future ADF keys and positions is unbounded; fixtures contain only a handful of extra keys.", "anchors": ["atlas_doc_parser/mark_or_node.py:Base.from_dict", "atlas_doc_parser/mark_or_node.py:BaseNode.from_dict", "atlas_doc_parser/mark_or_node.py:BaseMark.from_dict"]}
{"id": "C02", "title": "Unimplemented types are pruned, exactly", "statement": "When parsing succeeds or fails, the outcome equals the outcome of parsing the same input from which every content/marks list element whose 'type' is not registered has been deleted beforehand (recursively, with its whole subtree); and, if warnings are enabled, the log holds exactly one warning per deleted element that was reached, in document order, nothing else.", "quantifier": "every input tree, every position and number of unknown elements", "why_tests_cant": "Unknown types can occur anywhere in arbitrarily deep trees, in any combination.", "anchors": ["atlas_doc_parser/mark_or_node.py:BaseNode.from_dict", "atlas_doc_parser/nodes/parse_node.py:parse_node", "atlas_doc_parser/marks/parse_mark.py:parse_mark"]}
{"id": "C03", "title": "Only UnimplementedTypeError is swallowed while parsing", "statement": "K.from_dict never lets an UnimplementedTypeError escape; any other failure of a child (missing type, missing required field, non-dict child, unhashable type) at any depth makes the whole parse fail with that same exception, the first one in document order (attrs, then content, then marks, then the element's own constructor).", "quantifier": "every class, every input tree", "why_tests_cant": "A test can show that one error propagates, not that none is swallowed.", "anchors": ["atlas_doc_parser/mark_or_node.py:BaseNode.from_dict", "atlas_doc_parser/nodes/parse_node.py:parse_node"]}
{"id": "C04", "title": "Dispatch soundness", "statement": "In every object tree returned by parse_node, each node (mark) is an instance of the class registered for the value of its 'type', so type-string tests (is_type_of) and class membership never disagree; the registries are injective, cover exactly 35 node and 16 mark types, and every registered name is a TypeEnum member.", "quantifier": "every successfully parsed tree, every node in it", "why_tests_cant": "Holds for all nodes of all trees; tests look at roots of a few trees.", "anchors": ["atlas_doc_parser/nodes/parse_node.py:NODE_TYPE_TO_CLASS_MAPPING", "atlas_doc_parser/marks/parse_mark.py:MARK_TYPE_TO_CLASS_MAPPING", "atlas_doc_parser/type_enum.py:TypeEnum"]}
{"id": "C05", "title": "Required fields are enforced, optional ones never are", "statement": "A registered element whose children parse is accepted if and only if every required field of its class is present and its attrs (when the class has attrs and the key is present) is a dictionary holding every required attribute; the exception raised otherwise is determined (ParamError for a missing required field, TypeError for a missing positional attribute or a non-dict attrs).", "quantifier": "every class, every dictionary", "why_tests_cant": "The matrix of 51 classes times subsets of keys is beyond enumeration in tests.", "anchors": ["atlas_doc_parser/mark_or_node.py:Base.from_dict", "atlas_doc_parser/mark_or_node.py:BaseNode.from_dict", "atlas_doc_parser/nodes/*.py field defaults", "atlas_doc_parser/marks/*.py field defaults"]}
{"id": "C06", "title": "Declared data is preserved verbatim by parsing", "statement": "After a successful parse, every declared attribute present in the input is stored unchanged under the same name, every absent optional attribute is OPT, and the object's children are, in order, exactly the parses of the registered elements of the input's content list (same for marks).", "quantifier": "every input, every class, every attribute", "why_tests_cant": "Ranges over all attribute values and all lists.", "anchors": ["atlas_doc_parser/mark_or_node.py:Base.from_dict", "atlas_doc_parser/mark_or_node.py:BaseNode.from_dict"]}
{"id": "C07", "title": "settings.WARN_UNIMPLEMENTED_TYPE affects logging only", "statement": "For every input, parsing with the flag off returns the same object / raises the same exception as with the flag on, and logs nothing; toggling the flag between calls never changes a result.", "quantifier": "every input, every history of flag settings", "why_tests_cant": "Quantifies over inputs and flag histories.", "anchors": ["atlas_doc_parser/mark_or_node.py:BaseNode.from_dict", "atlas_doc_parser/settings.py:WARN_UNIMPLEMENTED_TYPE"]}
{"id": "C08", "title": "The class-field cache is transparent", "statement": "Whatever sequence of from_dict / get_fields calls on whatever classes happened before (including calls that raised), get_fields and from_dict return what they would return in a fresh process: every cache entry always equals the class's own declared fields, no class ever sees another class's fields, and entries are never lost.", "quantifier": "every history of operations, every class", "why_tests_cant": "History-dependent: a test exercises one import order and one call order.", "anchors": ["atlas_doc_parser/mark_or_node.py:Base.get_fields", "atlas_doc_parser/mark_or_node.py:_CLASS_FIELD"]}
{"id": "C09", "title": "from_dict neither mutates nor aliases its argument", "statement": "K.from_dict(d) leaves d and everything reachable from it unchanged, also when it raises, and no mutable object reachable from the result is reachable from d; so later in-place edits of d cannot change the parsed object. This is for node and mark classes; calling the from_dict of an Attrs class directly keeps the input's own mutable values (shown by a counterexample).", "quantifier": "every heap-shaped input including shared sub-objects, every class, success and failure", "why_tests_cant": "Aliasing must be excluded for all reachable objects, and tests compare values, not identities.", "anchors": ["atlas_doc_parser/mark_or_node.py:BaseNode.from_dict (copy.deepcopy)", "atlas_doc_parser/mark_or_node.py:BaseMark.from_dict (copy.deepcopy)"]}
{"id": "C10", "title": "Object round-trip", "statement": "For every object obtained by parsing, K.from_dict(obj.to_dict()) succeeds, logs no warning and equals obj.", "quantifier": "every successfully parsed tree whose content/marks are lists", "why_tests_cant": "Round-trip must hold for all trees of all depths; check_seder runs on a few fixtures.", "anchors": ["atlas_doc_parser/mark_or_node.py:BaseNode.to_dict", "atlas_doc_parser/mark_or_node.py:BaseMark.to_dict", "atlas_doc_parser/mark_or_node.py:BaseNode.from_dict"]}
{"id": "C11", "title": "Dictionary round-trip to a normal form", "statement": "parse_node(d).to_dict() equals d with undeclared keys and unregistered elements removed, defaults added (doc version) and keys in declaration order: nothing declared is lost, nothing is invented (except the OPT leak of C12).", "quantifier": "every parseable d", "why_tests_cant": "Needs every tree and every key combination.", "anchors": ["atlas_doc_parser/mark_or_node.py:BaseNode.to_dict", "atlas_doc_parser/mark_or_node.py:BaseNode.from_dict"]}
{"id": "C12", "title": "to_dict leaks the OPT sentinel only through unset mark attributes", "statement": "The OPT sentinel occurs in the dictionary returned by to_dict exactly when some mark in the tree has an optional attribute the input did not set; node attributes never leak it. (The documented 'JSON-serialisable output' therefore fails, e.g. for every link mark without title: BaseMark.to_dict tests hasattr on what is already a plain dict.)", "quantifier": "every parsed object from sentinel-free input", "why_tests_cant": "A universally quantified negative over nested outputs.", "anchors": ["atlas_doc_parser/mark_or_node.py:BaseMark.to_dict", "atlas_doc_parser/mark_or_node.py:BaseNode.to_dict"]}
{"id": "C13", "title": "Serialisation is stable", "statement": "Serialising, re-parsing and serialising again gives the same dictionary: to_dict(from_dict(to_dict(x))) = to_dict(x).", "quantifier": "every parsed tree", "why_tests_cant": "All trees.", "anchors": ["atlas_doc_parser/mark_or_node.py:BaseNode.to_dict"]}
{"id": "C14", "title": "Markdown does not depend on serialisation round-trips or on unimplemented elements", "statement": "obj and K.from_dict(obj.to_dict()) render to the same Markdown (same errors too), under both ignore_error settings; a document and the same document with unimplemented elements deleted render identically.", "quantifier": "every parsed tree, both ignore_error values", "why_tests_cant": "Composition of two infinite-domain functions.", "anchors": ["atlas_doc_parser/mark_or_node.py:BaseNode.from_dict", "atlas_doc_parser/nodes/*.py:to_markdown"]}
{"id": "C15", "title": "Emphasis marks wrap and never alter the text", "statement": "strong / em / strike map text t to **t**, *t*, ~~t~~ when t has a non-whitespace character and to t itself otherwise; the inner text can be recovered from the output.", "quantifier": "every string including Unicode whitespace-only strings", "why_tests_cant": "All Unicode strings.", "anchors": ["atlas_doc_parser/marks/mark_strong.py", "atlas_doc_parser/marks/mark_em.py", "atlas_doc_parser/marks/mark_strike.py"]}
{"id": "C16", "title": "Marks without Markdown equivalent are transparent", "statement": "textColor, backgroundColor, underline, subsup, annotation, alignment, border, breakout, dataConsumer, fragment return the text unchanged for every attrs, so adding or deleting such marks anywhere in a mark list never changes the rendering of a node.", "quantifier": "every text, every attrs, every position in every mark list", "why_tests_cant": "All combinations.", "anchors": ["atlas_doc_parser/mark_or_node.py:BaseMark.to_markdown", "atlas_doc_parser/markdown_helpers.py:add_style_to_markdown"]}
{"id": "C17", "title": "Marks apply in list order and keep the text", "statement": "A text node with marks m1..mn renders as mn(...m1(text)); whenever no indentation mark and no link with a string title is among them and rendering succeeds, the result contains the text. An indentation mark returns nothing of the text and a titled link replaces it by the title: the documented 'preserve content' principle fails exactly there.", "quantifier": "every text, every mark list", "why_tests_cant": "Unbounded mark lists and texts.", "anchors": ["atlas_doc_parser/markdown_helpers.py:add_style_to_markdown", "atlas_doc_parser/nodes/node_text.py:NodeText.to_markdown", "atlas_doc_parser/marks/mark_indentation.py", "atlas_doc_parser/marks/mark_link.py"]}
{"id": "C18", "title": "Code mark", "statement": "The code mark raises ValueError exactly when the text contains a newline, wraps in double back-ticks plus spaces when the text has a non-blank character, and otherwise returns it unchanged.", "quantifier": "every string", "why_tests_cant": "All strings.", "anchors": ["atlas_doc_parser/marks/mark_code.py"]}
{"id": "C19", "title": "Link mark", "statement": "The link mark yields [label](href) with label = title when title is a string (even empty) and the text otherwise, never failing on string text.", "quantifier": "every text, href, title", "why_tests_cant": "All strings.", "anchors": ["atlas_doc_parser/marks/mark_link.py"]}
{"id": "C20", "title": "No textual content is lost in rendering", "statement": "For a document built from content-preserving nodes, every text leaf's string occurs in the Markdown output, leaves appear in document order and do not overlap. Node kinds that drop content (mediaGroup, caption, mediaInline, non-item children of lists, the indentation mark, titled links) are the exceptions, each shown by a lost text.", "quantifier": "every document tree of the stated class, any depth", "why_tests_cant": "Content loss can be triggered by any nesting combination.", "anchors": ["atlas_doc_parser/markdown_helpers.py", "atlas_doc_parser/nodes/*.py:to_markdown"]}
{"id": "C21", "title": "strip_double_empty_line removes newlines only, and how many", "statement": "The function only deletes newline characters adjacent to other newlines: the non-newline characters and the lines' order are unchanged, runs of one or two newlines stay, a run of k newlines becomes shorter by exactly the three-pass formula; runs of up to 6 become 2, and the documented 'at most one blank line' fails from 7 on.", "quantifier": "every string, every run length", "why_tests_cant": "All run lengths; docs claim a bound that is off.", "anchors": ["atlas_doc_parser/markdown_helpers.py:strip_double_empty_line"]}
{"id": "C22", "title": "Exactly when document output has two consecutive blank lines", "statement": "NodeDoc.to_markdown returns text with three consecutive newlines if and only if the joined blocks hold a run of at least seven newlines. So the promised 'no two consecutive blank lines' holds exactly for documents whose joined blocks stay below that, and fails for others (e.g. two rules around an empty paragraph).", "quantifier": "every document", "why_tests_cant": "All adjacent block combinations.", "anchors": ["atlas_doc_parser/markdown_helpers.py:doc_content_to_markdown", "atlas_doc_parser/nodes/node_doc.py"]}
{"id": "C23", "title": "ignore_error=True is conservative", "statement": "If to_markdown() (strict) succeeds, to_markdown(ignore_error=True) returns the very same string.", "quantifier": "every node of every class", "why_tests_cant": "All trees.", "anchors": ["atlas_doc_parser/markdown_helpers.py", "atlas_doc_parser/nodes/*.py:to_markdown"]}
{"id": "C24", "title": "ignore_error=True on a document degrades per top-level block", "statement": "NodeDoc.to_markdown(ignore_error=True) never raises for a parsed document, and equals the strict rendering of the same document with exactly those top-level blocks removed whose strict rendering fails.", "quantifier": "every parsed document", "why_tests_cant": "Every combination of failing blocks.", "anchors": ["atlas_doc_parser/markdown_helpers.py:doc_content_to_markdown", "atlas_doc_parser/nodes/node_doc.py"]}
{"id": "C25", "title": "Strict rendering fails fast with the child's own error", "statement": "to_markdown() of a container fails if and only if the rendering of one of the children it renders fails (or the container's own attributes are unusable), with the exception of the first failing child in document order.", "quantifier": "every document", "why_tests_cant": "All trees.", "anchors": ["atlas_doc_parser/markdown_helpers.py:content_to_markdown", "atlas_doc_parser/markdown_helpers.py:doc_content_to_markdown"]}
{"id": "C26", "title": "What ignore_error=True skips", "statement": "to_markdown(ignore_error=True) equals the strict rendering of the tree from which exactly the skipped children were removed: only taskList, decisionList and tableRow hand the flag down, every other container takes or drops each direct child whole, by that child's strict rendering. So a failure deep inside removes the whole direct child of the node the flag was given to (the documented recursive propagation does not hold); taskList and orderedList can raise even with the flag set.", "quantifier": "every tree", "why_tests_cant": "Needs a witness with nesting and a proof for the one-level case.", "anchors": ["atlas_doc_parser/mark_or_node.py:BaseNode.to_markdown docstring", "atlas_doc_parser/markdown_helpers.py:content_to_markdown", "atlas_doc_parser/nodes/node_task_list.py"]}
{"id": "C27", "title": "Document blocks are laid out in order with the documented separation", "statement": "The document Markdown is the newline-collapse of the blocks' own Markdown joined by one newline, with bulletList, orderedList and codeBlock blocks padded by one newline on each side; blank-line collapsing never touches the visible characters.", "quantifier": "every list of blocks", "why_tests_cant": "All block lists.", "anchors": ["atlas_doc_parser/markdown_helpers.py:doc_content_to_markdown"]}
{"id": "C28", "title": "Table geometry", "statement": "A table whose rows render and are non-empty yields one line per row plus one delimiter line after each row whose first cell is a tableHeader; each row line has one more unescaped pipe than the row has cells and contains no newline when the cells' text has no other line separators.", "quantifier": "every table with any number of rows, cells and nested content", "why_tests_cant": "All sizes and contents.", "anchors": ["atlas_doc_parser/nodes/node_table.py", "atlas_doc_parser/nodes/node_table_row.py"]}
{"id": "C29", "title": "Table cells cannot break the table", "statement": "A rendered cell contains no newline and every pipe in it is preceded by a backslash; leading spaces of each line become &nbsp; one for one; lines are joined by <br>; and without pipes, newlines and leading spaces the cell text is unchanged.", "quantifier": "every cell content", "why_tests_cant": "All strings.", "anchors": ["atlas_doc_parser/nodes/node_table_cell.py", "atlas_doc_parser/nodes/node_table_header.py"]}
{"id": "C30", "title": "Which delimiter lines a table has", "statement": "A table whose first row starts with a header cell while no other row does has exactly one delimiter line, as second line, with as many columns as the first row; a table where no row starts with a header cell has none; in general there is one delimiter after each row that starts with a header cell, so header-column tables have several.", "quantifier": "every table", "why_tests_cant": "All row patterns.", "anchors": ["atlas_doc_parser/nodes/node_table.py"]}
{"id": "C31", "title": "Bullet lists render as the outline of the list", "statement": "A bulletList tree renders as the pre-order list of its items, each item on its own '- ' line indented by four spaces per bulletList nesting level, continuation lines following their item; number of bullet lines = number of items at all depths.", "quantifier": "every bulletList tree of any depth and width", "why_tests_cant": "Unbounded nesting.", "anchors": ["atlas_doc_parser/nodes/node_bullet_list.py"]}
{"id": "C32", "title": "Ordered lists number consecutively", "statement": "The i-th item of an orderedList is numbered start+i, start = attrs.order at the top level if it is an integer, 1 otherwise, 1 in nested lists; indentation is four spaces per level. An orderedList without attrs (valid ADF) always raises AttributeError.", "quantifier": "every orderedList tree, every start value", "why_tests_cant": "Unbounded.", "anchors": ["atlas_doc_parser/nodes/node_ordered_list.py"]}
{"id": "C33", "title": "Task lists render state and nesting", "statement": "A taskList tree renders one line per taskItem in pre-order, '[x]' iff state is DONE, indentation four spaces per taskList level. A taskItem without content (valid ADF) makes the list raise TypeError, also with ignore_error=True.", "quantifier": "every taskList tree", "why_tests_cant": "Unbounded.", "anchors": ["atlas_doc_parser/nodes/node_task_list.py"]}
{"id": "C34", "title": "Mixed list nesting is rendered flat", "statement": "A list of another kind nested in a list item is copied into the output line by line exactly as it renders on its own (up to trailing whitespace), i.e. at level 0, however deep its parent item is indented; so a mixed nesting loses its indentation (bullet in ordered, ordered in bullet, task list in an item).", "quantifier": "every mixed nesting", "why_tests_cant": "Needs all nestings.", "anchors": ["atlas_doc_parser/nodes/node_bullet_list.py", "atlas_doc_parser/nodes/node_ordered_list.py"]}
{"id": "C35", "title": "Decision items are clean blockquotes", "statement": "Every output line of a decisionItem starts with '>', no blank line precedes the second content line, no two blank quote lines are adjacent, trailing whitespace is removed, and non-blank lines are kept in order; decisionList joins its items by one blank line.", "quantifier": "every content", "why_tests_cant": "All line patterns.", "anchors": ["atlas_doc_parser/nodes/node_decision_item.py", "atlas_doc_parser/nodes/node_decision_list.py"]}
{"id": "C36", "title": "Blockquotes and panels prefix every line", "statement": "Each line of a blockquote/panel rendering starts with '> ' and removing the prefixes gives back the collapsed inner Markdown; a panel starts with its upper-cased type in bold followed by an empty quoted line.", "quantifier": "every inner content including exotic line separators", "why_tests_cant": "All strings and all Unicode line boundaries.", "anchors": ["atlas_doc_parser/nodes/node_blockquote.py", "atlas_doc_parser/nodes/node_panel.py"]}
{"id": "C37", "title": "Headings", "statement": "A heading renders as two newlines, level hash signs, a space, the inline content and two newlines; marks on headings do not influence the output; level must be an integer.", "quantifier": "every level, every content", "why_tests_cant": "All.", "anchors": ["atlas_doc_parser/nodes/node_heading.py"]}
{"id": "C38", "title": "Dates are the UTC calendar date of the timestamp", "statement": "A date node with a millisecond timestamp (integer or integer string) renders as the ISO date YYYY-MM-DD of floor(ts/86400000) days after 1970-01-01 in the proleptic Gregorian calendar for every timestamp in years 1..9999, in spite of binary floating-point division, and raises outside.", "quantifier": "every integer timestamp", "why_tests_cant": "10^14 timestamps; float rounding at boundaries.", "anchors": ["atlas_doc_parser/nodes/node_date.py"]}
{"id": "C39", "title": "Code blocks are verbatim fenced blocks", "statement": "A codeBlock renders as a fence line with the language ('none' and non-strings give no language), the unchanged code and a closing fence. The fence does not adapt: code that itself has a line of three back-ticks closes the block early.", "quantifier": "every code text and language", "why_tests_cant": "All strings.", "anchors": ["atlas_doc_parser/nodes/node_code_block.py"]}
{"id": "C40", "title": "Inline leaves never invent or lose their documented representation", "statement": "emoji gives text, else shortName; mention gives text, else @Unknown; status gives `text`; inlineCard/blockCard/embedCard give [url](url); extension gives its key and text; failures happen exactly in the NotImplementedError branches.", "quantifier": "every attrs", "why_tests_cant": "All attribute values and types.", "anchors": ["atlas_doc_parser/nodes/node_emoji.py", "atlas_doc_parser/nodes/node_mention.py", "atlas_doc_parser/nodes/node_status.py", "atlas_doc_parser/nodes/node_inline_card.py", "atlas_doc_parser/nodes/node_block_card.py", "atlas_doc_parser/nodes/node_embed_card.py", "atlas_doc_parser/nodes/node_extension.py"]}
{"id": "C41", "title": "Media rendering", "statement": "media of type external with a string url gives ![alt](url), type file gives ![alt](media:id), link gives [media], anything else raises TypeError; alt defaults to 'media'; marks are applied for external and file media.", "quantifier": "every attrs and marks", "why_tests_cant": "All.", "anchors": ["atlas_doc_parser/nodes/node_media.py"]}
{"id": "C42", "title": "to_markdown returns a string", "statement": "Whenever to_markdown returns, it returns a str, for every node except a text node whose text is not a string.", "quantifier": "every node, both flags", "why_tests_cant": "All trees.", "anchors": ["atlas_doc_parser/nodes/*.py:to_markdown"]}
{"id": "C43", "title": "is_type_of", "statement": "node.is_type_of(ts) is true iff the node's type equals the value of one of ts; single member and one-element list agree; it is monotone and order-insensitive in the list.", "quantifier": "every node, every list of TypeEnum members", "why_tests_cant": "All lists.", "anchors": ["atlas_doc_parser/type_enum.py:check_type_match", "atlas_doc_parser/mark_or_node.py:BaseMarkOrNode.is_type_of"]}
{"id": "C44", "title": "Well-formed documents always render", "statement": "Every document whose leaves carry the values their classes document (string texts, integer levels, usable timestamps, urls on cards, attrs on ordered lists, content on task items, non-empty table rows, code marks on newline-free text) renders without any exception in strict mode, however it is nested.", "quantifier": "every document satisfying the checklist", "why_tests_cant": "Absence of exceptions over all trees.", "anchors": ["atlas_doc_parser/nodes/*.py:to_markdown"]}
{"id": "C45", "title": "The generated public API is exact", "statement": "generate_api_py emits exactly one import line per public Base subclass defined in its marks/nodes module and per T_NODE_/T_MARK_ alias of a module, grouped by module in sorted order, whatever order the modules and members are found in; it succeeds iff every module can be imported. Names are not checked for uniqueness: when two modules export one name the later import wins; on the repository's own modules there is no collision and the committed api.py is what is generated.", "quantifier": "every set of modules and members", "why_tests_cant": "All module sets.", "anchors": ["atlas_doc_parser/gen_code.py", "atlas_doc_parser/templates/api.py.jinja", "atlas_doc_parser/api.py"]}
{"id": "C46", "title": "Which containers drop children", "statement": "mediaGroup, caption and mediaInline render to the empty string whatever they contain; bulletList/orderedList ignore non-listItem children, taskList ignores everything but taskItem/taskList, decisionList everything but decisionItem: replacing or deleting such children never changes the output.", "quantifier": "every such node, every child list", "why_tests_cant": "All trees.", "anchors": ["atlas_doc_parser/nodes/node_media_group.py", "atlas_doc_parser/nodes/node_caption.py", "atlas_doc_parser/nodes/node_media_inline.py", "atlas_doc_parser/nodes/node_bullet_list.py", "atlas_doc_parser/nodes/node_ordered_list.py", "atlas_doc_parser/nodes/node_task_list.py", "atlas_doc_parser/nodes/node_decision_list.py"]}
{"id": "C47", "title": "Warning text identifies the element", "statement": "The UnimplementedTypeError message starts with 'Node type' or 'Mark type' followed by the quoted type value; different (category,string type) pairs give different messages.", "quantifier": "every category and type string", "why_tests_cant": "All strings.", "anchors": ["atlas_doc_parser/exc.py:UnimplementedTypeError"]}
{"id": "C48", "title": "Attribute-only changes do not reach the Markdown", "statement": "localId, ids, colours, layout, width and similar presentation attributes never influence the Markdown: two nodes that differ only in attributes not read by to_markdown render identically, at any depth.", "quantifier": "every pair of trees differing in presentation attributes", "why_tests_cant": "All attribute values in all positions.", "anchors": ["atlas_doc_parser/nodes/*.py:to_markdown"]}
{"id": "C49", "title": "Concurrent parsing is safe", "statement": "Any number of threads may call parse_node, K.from_dict, parse_mark and get_fields and set settings.WARN_UNIMPLEMENTED_TYPE at the same time, although all of them share the class-field cache without a lock: whatever the schedule, every finished thread got for each call exactly the answer that call gives alone, every cache entry is correct at every moment, a thread's warnings appear in the log in order and only those its calls log alone (all of them if nobody switches warnings off, none if nobody switches them on), no thread blocks, and every schedule ends.", "quantifier": "every number of threads, every list of calls per thread, every interleaving of their accesses to the shared state", "why_tests_cant": "the number of interleavings is unbounded; a race shows up only under a schedule that tests cannot force", "anchors": ["atlas_doc_parser/mark_or_node.py:_CLASS_FIELD", "atlas_doc_parser/mark_or_node.py:Base.get_fields", "atlas_doc_parser/mark_or_node.py:BaseNode.from_dict", "atlas_doc_parser/settings.py:WARN_UNIMPLEMENTED_TYPE"]}
{"id": "C50", "title": "to_dict returns new data", "statement": "x.to_dict(), on any node, mark or Attrs object, changes no object that existed before the call, however it ends, and returns data none of which existed before: the dictionary shares no list, dictionary or object with x, so editing the dictionary in place never changes x and editing x never changes the dictionary. Its contents are those of C11. Along dict -> from_dict -> to_dict the three share nothing and the first two are still what they were.", "quantifier": "every object (also cyclic or hand-edited ones), every way of sharing parts, every later in-place edit", "why_tests_cant": "aliasing shows only through later mutation of some part; there are unboundedly many object graphs and edits", "anchors": ["atlas_doc_parser/mark_or_node.py:Base.to_dict", "atlas_doc_parser/mark_or_node.py:BaseMark.to_dict", "atlas_doc_parser/mark_or_node.py:BaseNode.to_dict"]}
{"id": "C51", "title": "Key order is irrelevant", "statement": "Reordering the keys of the dictionaries of an input document (at any depth) changes neither whether it parses, nor the exception, nor the warnings and their order; the resulting objects serialise to the same data, are identical if no field holds a dictionary, and render to the same Markdown if no rendered attribute is a dictionary.", "quantifier": "every input value, every reordering of keys at every depth, every class", "why_tests_cant": "There are exponentially many key orders of each of infinitely many documents.", "anchors": ["atlas_doc_parser/mark_or_node.py:Base.from_dict", "atlas_doc_parser/mark_or_node.py:BaseNode.from_dict"]}
{"id": "C52", "title": "Equality of objects is equality of their data", "statement": "== on parsed objects is an equivalence relation, holds only within a class, agrees with == on their to_dict() dictionaries, and equal input dictionaries (key order, 1 vs 1.0 vs True) parse to equal objects or fail alike. Equal objects render alike if what is rendered of them holds no booleans, floats or dictionaries, and need not otherwise.", "quantifier": "every two (three) parsed objects", "why_tests_cant": "Equality ranges over pairs of unbounded trees.", "anchors": ["atlas_doc_parser/mark_or_node.py:Base", "atlas_doc_parser/mark_or_node.py:BaseNode.to_dict"]}
{"id": "C53", "title": "Which objects can be hashed", "statement": "Equal parsed objects have equal hashes; hash(obj) succeeds exactly when no declared field or attribute of the element is a list or dictionary, and raises TypeError otherwise, so that an element with a list of children or of marks can never be a set member or dictionary key.", "quantifier": "every parsed object, every hash function of the atoms", "why_tests_cant": "Ranges over all objects and all values of their fields.", "anchors": ["atlas_doc_parser/mark_or_node.py:Base", "atlas_doc_parser/nodes/*.py (dataclass decorators)"]}
{"id": "C54", "title": "Implementation order of the schema analysis", "statement": "topological_sort(graph) ends and returns every node of the graph exactly once: always the alphabetically first node whose dependencies (those that are nodes) are all listed already, and when there is none, the rest alphabetically. Hence every node comes after all it depends on unless it is on a cycle or depends on one; the latter are listed last, alphabetically, and may precede what they depend on. The result does not depend on the order of the dictionary, the iteration order of sets (PYTHONHASHSEED) or dependencies outside the graph.", "quantifier": "every dependency graph, every iteration order of every walk over a set", "why_tests_cant": "Ranges over all graphs and all hash orders; one run shows one order.", "anchors": ["scripts/s01-adf-json-schema-analysis/s2_analyze_adf_json_schema.py:topological_sort"]}
{"id": "C55", "title": "The schema analysis report is exact and reproducible", "statement": "For every \"definitions\" dictionary the report lists: the number of definitions of each kind, all values of \"type\" enums at any depth, every base type with exactly the other base types that one of its variants refers to by $ref at any depth (in the order of C54), and all marks. Regenerating it gives the same bytes whatever PYTHONHASHSEED and the order of the schema's keys; it fails (TypeError, AttributeError) exactly when a type enum or a $ref is not made of strings.", "quantifier": "every schema, every reordering of its keys, every iteration order of sets", "why_tests_cant": "The schema is downloaded and changes; all reorderings and hash seeds cannot be tried.", "anchors": ["scripts/s01-adf-json-schema-analysis/s2_analyze_adf_json_schema.py:extract_refs", "scripts/s01-adf-json-schema-analysis/s2_analyze_adf_json_schema.py:extract_type_enums", "scripts/s01-adf-json-schema-analysis/s2_analyze_adf_json_schema.py:get_base_type", "scripts/s01-adf-json-schema-analysis/s2_analyze_adf_json_schema.py:main"]}
{"id": "C56", "title": "Memory taken by parsing and serializing", "statement": "Parsing a document (from_dict, parse_node; also when it raises) allocates at most 5 x containers x nesting depth new objects, where containers counts the input's dictionaries and lists; parsing a mark at most containers + 2; to_dict at most 5 x objects x nesting depth of the node. So neither can blow up exponentially. Neither is linear: because every level deep-copies (resp. asdict-copies) all below it, n nested block quotes cost at least n^2 objects in both directions.", "quantifier": "every input value, every sharing of its parts in memory, every entry point, every outcome", "why_tests_cant": "A resource bound over all inputs of all sizes and depths; measurements show one size.", "anchors": ["atlas_doc_parser/mark_or_node.py:BaseNode.from_dict", "atlas_doc_parser/mark_or_node.py:BaseMark.from_dict", "atlas_doc_parser/mark_or_node.py:BaseNode.to_dict"]}
{"id": "C57", "title": "The class generator never overwrites a hand-written mixin", "statement": "Whatever sequence of runs of s1_gen_code.py, on whatever schemas and stopped at whatever point (kill, full disk, exception), a file in mixins/ that exists keeps its content. A run changes only nodes/parse.py, the module of a definition of the schema in nodes/, and a mixin file that did not exist; no file ever disappears (so modules of definitions removed from the schema stay).", "quantifier": "every history of runs, every schema, every stopping point, every initial disk", "why_tests_cant": "The guarantee is about all schemas and all crash points.", "anchors": ["scripts/s02-nodes-code-gen/s1_gen_code.py:main", "scripts/s02-nodes-code-gen/s1_gen_code.py:MIXIN_DIR"]}
{"id": "C58", "title": "Running the class generator again repairs an interrupted run", "statement": "A complete run leaves nodes/ in a state that depends only on the schema and the files it does not write; so after any number of interrupted runs a complete one gives the same nodes/ as a first complete run. With both directories present only a kill or a malformed schema can prevent completion, and every definition then has a mixin; a stub that did not exist before is a placeholder for the class of its own file (when no other definition shares that file). The repair does not extend to mixins/: a stub cut off by a kill (possibly empty) is never completed by any later run.", "quantifier": "every schema, every sequence of interruptions", "why_tests_cant": "Needs every crash point of every history.", "anchors": ["scripts/s02-nodes-code-gen/s1_gen_code.py:main"]}
{"id": "C59", "title": "Without mixins/ the class generator destroys nodes/ and fails", "statement": "If the directory mixins/ is missing, as in the repository at this commit, every run of the class generator on an acceptable schema with at least one definition ends in FileNotFoundError (unless killed), after having replaced nodes/parse.py and the module of every definition in nodes/ - hand-written to_markdown methods included - by exactly what a complete run writes.", "quantifier": "every acceptable schema, every disk without mixins/", "why_tests_cant": "Quantifies over all schemas and disk contents.", "anchors": ["scripts/s02-nodes-code-gen/s1_gen_code.py:main", "scripts/s02-nodes-code-gen/s1_gen_code.py:MIXIN_DIR", "scripts/s02-nodes-code-gen/s1_gen_code.py:NODES_DIR"]}
{"id": "C60", "title": "Names the class generator gives", "statement": "A definition in camel case, e.g. tableCell_node, becomes the module node_table_cell and the class NodeTableCell, and two different ones never share a file. In general marks and nodes never share a file, no module is parse.py, and definitions that share one differ only in case and underscores (and then share the class too: the last wins). nodes/parse.py holds, for every mark and every node of the schema in alphabetical order, its import and its row from type to class.", "quantifier": "every schema with unique keys, every ASCII name", "why_tests_cant": "Ranges over all names.", "anchors": ["scripts/s02-nodes-code-gen/s1_gen_code.py:camel_to_snake", "scripts/s02-nodes-code-gen/s1_gen_code.py:snake_to_pascal", "scripts/s02-nodes-code-gen/s1_gen_code.py:def_name_to_names", "scripts/s02-nodes-code-gen/s1_gen_code.py:get_all_definitions", "scripts/s02-nodes-code-gen/templates/parse.py.jinja2"]}
{"id": "C61", "title": "Classes the class generator writes", "statement": "The module of a definition holds an Attrs class (if it has a property attrs) with the declared fields and their Python types, required fields first and both groups alphabetical, and a class with the fields type, attrs, content, marks, text, version for exactly those properties it has itself or through allOf (the last wins).", "quantifier": "every schema with unique keys on which the run completes, every definition alone in its file", "why_tests_cant": "Ranges over all schemas.", "anchors": ["scripts/s02-nodes-code-gen/s1_gen_code.py:extract_schema_info", "scripts/s02-nodes-code-gen/s1_gen_code.py:schema_type_to_python", "scripts/s02-nodes-code-gen/s1_gen_code.py:get_type_enum", "scripts/s02-nodes-code-gen/templates/node.py.jinja2", "scripts/s02-nodes-code-gen/templates/mark.py.jinja2"]}
{"id": "C62", "title": "The class generator is reproducible", "statement": "The order of the definitions in the schema does not matter: the same endings with the same files are possible on every disk. main() changes the schema it has loaded (it merges allOf into properties in place); a second call in the same process on the changed schema does the same as on the original.", "quantifier": "every schema, every permutation of its definitions", "why_tests_cant": "All permutations cannot be tried; in-place mutation shows only on some schemas.", "anchors": ["scripts/s02-nodes-code-gen/s1_gen_code.py:main", "scripts/s02-nodes-code-gen/s1_gen_code.py:extract_schema_info", "scripts/s02-nodes-code-gen/s1_gen_code.py:get_type_enum"]}
{"id": "C63", "title": "What check_seder tests", "statement": "check_seder(inst) passes for every object that from_dict made of JSON data whose content and marks are lists, whatever the class and the data; so it can never notice lost or misread input. Its second assertion is vacuous: the check passes exactly when the first holds. With content that is no list it raises TypeError.", "quantifier": "every parsed node and mark", "why_tests_cant": "A claim about all inputs on which the tests' own helper passes.", "anchors": ["atlas_doc_parser/tests/helper.py:check_seder", "atlas_doc_parser/tests/data/samples.py:AdfSample.test_node_or_mark"]}
{"id": "C64", "title": "Downloaded test data is fetched once and never refreshed", "statement": "AdfJsonSchema.data and PageSample.adf: if the cache file exists (and no process is storing one) no request is ever made, the file never changes, and every access gives what the file says. The first JSON body that was stored (whatever its HTTP status) is what all later processes get. A file cut off by a kill or a full disk makes every later access in every process fail with JSONDecodeError; nothing repairs it.", "quantifier": "every history of processes, every point of interruption, every server", "why_tests_cant": "Ranges over crash points, process histories and server answers.", "anchors": ["atlas_doc_parser/tests/data/schema.py:AdfJsonSchema.data", "atlas_doc_parser/tests/data/samples.py:PageSample.adf"]}
{"id": "C65", "title": "Concurrent processes sharing the downloaded test data", "statement": "If the server always sends the same document, then under every interleaving of any number of processes, with kills and failed writes anywhere, every access that returns gives that document and the cache file holds a beginning of its text; without kills and failed writes the file is complete once all are done. If answers differ, two processes can leave a file that is neither answer and cannot be read.", "quantifier": "every schedule of any number of processes", "why_tests_cant": "All interleavings.", "anchors": ["atlas_doc_parser/tests/data/schema.py:AdfJsonSchema.data", "atlas_doc_parser/tests/data/samples.py:PageSample.adf"]}
{"id": "C66", "title": "Rendering is compositional", "statement": "Replacing any object anywhere in a tree by another one of the same type that renders to the same Markdown leaves the Markdown of the whole tree (or the exception raised) unchanged, for any number of replacements. The only exceptions are children their parent looks into: rows of a table, list items of a list, task items of a task list; for these, and for replacements by an object of another type, it can fail.", "quantifier": "every tree, every position, every pair of objects, both error modes", "why_tests_cant": "Ranges over all contexts and all pairs of objects that print the same.", "anchors": ["atlas_doc_parser/markdown_helpers.py:content_to_markdown", "atlas_doc_parser/markdown_helpers.py:doc_content_to_markdown", "atlas_doc_parser/nodes/node_table.py:NodeTable.to_markdown", "atlas_doc_parser/nodes/node_bullet_list.py:NodeBulletList.to_markdown", "atlas_doc_parser/nodes/node_task_list.py:NodeTaskList.to_markdown"]}
{"id": "C67", "title": "What has to be caught", "statement": "from_dict raises nothing but TypeError, ParamError, and KeyError when some element or mark has no \"type\"; parse_node and parse_mark in addition UnimplementedTypeError, exactly when the \"type\" of their own argument names no class. to_dict raises nothing but TypeError and AttributeError, and only when some object's content or marks was not a list. to_markdown raises nothing but TypeError, AttributeError, NotImplementedError (an emoji without text or a card without address in the tree), IndexError or KeyError (a table with an empty row or a row whose content is a dictionary), the errors of date conversion (a date in the tree with such a timestamp) and ValueError (such a date, or an object with a code mark); never UnimplementedTypeError or ParamError.", "quantifier": "every input dictionary, every object, both error modes", "why_tests_cant": "The absence of any other exception is a claim about all inputs.", "anchors": ["atlas_doc_parser/mark_or_node.py:BaseNode.from_dict", "atlas_doc_parser/mark_or_node.py:BaseNode.to_dict", "atlas_doc_parser/nodes/parse_node.py:parse_node", "atlas_doc_parser/marks/parse_mark.py:parse_mark", "atlas_doc_parser/markdown_helpers.py:add_style_to_markdown", "atlas_doc_parser/nodes/node_table.py:NodeTable.to_markdown"]}
{"id": "C68", "title": "The Markdown cannot explode", "statement": "The number of line breaks in the Markdown is at most proportional to the size of the document (objects, text, attributes as printed, marks; a heading's or indentation's level counts with its value), and its length at most to the size times the nesting depth (plus the digits of list numbers), hence at most quadratic in the size. The quadratic bound is reached by nested bullet lists, so no linear bound holds; and a heading's level is written out as that many characters, so a few characters of input can give Markdown of any length.", "quantifier": "every object, both error modes", "why_tests_cant": "A bound on the growth ranges over all documents of all sizes; a blow-up in some combination of quotes, tables and lists is not excluded by examples.", "anchors": ["atlas_doc_parser/markdown_helpers.py:content_to_markdown", "atlas_doc_parser/nodes/node_bullet_list.py:NodeBulletList.to_markdown", "atlas_doc_parser/nodes/node_ordered_list.py:NodeOrderedList.to_markdown", "atlas_doc_parser/nodes/node_table.py:NodeTable.to_markdown", "atlas_doc_parser/nodes/node_blockquote.py:NodeBlockquote.to_markdown", "atlas_doc_parser/nodes/node_heading.py:NodeHeading.to_markdown"]}
{"id": "C69", "title": "Content can be cut in two and joined again", "statement": "Reading a dictionary whose content list is the concatenation of two lists succeeds iff reading it with each of the two does, and gives the concatenation of the children with everything else the same; if the first part can be read, the whole raises exactly what the second raises, and the warnings are those of the first followed by those of the second. The same holds for to_dict. The Markdown of a list item, task item, bullet list, task list, table or decision list is the Markdown of the parts pasted together (with nothing, a newline, a blank line between), that of an ordered list if the second part's numbering continues the first, and that of a document or nested expand has the non-blank lines of the parts in order; each renders iff both parts do.", "quantifier": "every dictionary, every object, every cut, both error modes, both warning settings", "why_tests_cant": "Every pair of content lists of any length.", "anchors": ["atlas_doc_parser/mark_or_node.py:BaseNode.from_dict", "atlas_doc_parser/mark_or_node.py:BaseNode.to_dict", "atlas_doc_parser/markdown_helpers.py:content_to_markdown", "atlas_doc_parser/markdown_helpers.py:doc_content_to_markdown", "atlas_doc_parser/nodes/node_bullet_list.py:NodeBulletList.to_markdown", "atlas_doc_parser/nodes/node_ordered_list.py:NodeOrderedList.to_markdown", "atlas_doc_parser/nodes/node_task_list.py:NodeTaskList.to_markdown", "atlas_doc_parser/nodes/node_table.py:NodeTable.to_markdown", "atlas_doc_parser/nodes/node_decision_list.py:NodeDecisionList.to_markdown"]}
{"id": "C70", "title": "Every object is rendered at most once, in document order", "statement": "to_markdown on a document calls to_markdown on some of its objects, each at most once and in document order, so the number of calls is at most the number of objects. A call is nested in fewer calls than there are objects on the longest path, so the recursion is as deep as the document. Without ignore_error, a rendering that succeeds has called exactly the objects that are shown (all, except the item objects of lists and task lists, children of lists that are not items, and what is under nodes that do not show their content), and one that raises has called an initial part of them and nothing after the failure.", "quantifier": "every document that can be read, both error modes, success and failure", "why_tests_cant": "The calls made are not visible in the result; a child rendered twice (exponential time in the depth) or after a failure shows in no output comparison.", "anchors": ["atlas_doc_parser/markdown_helpers.py:content_to_markdown", "atlas_doc_parser/markdown_helpers.py:doc_content_to_markdown", "atlas_doc_parser/nodes/node_bullet_list.py:NodeBulletList.to_markdown", "atlas_doc_parser/nodes/node_ordered_list.py:NodeOrderedList.to_markdown", "atlas_doc_parser/nodes/node_task_list.py:NodeTaskList.to_markdown", "atlas_doc_parser/nodes/node_decision_list.py:NodeDecisionList.to_markdown", "atlas_doc_parser/nodes/node_table.py:NodeTable.to_markdown", "atlas_doc_parser/nodes/node_table_row.py:NodeTableRow.to_markdown"]}
{"id": "C71", "title": "Rendering only reads, and its source text does what the rendering properties say", "statement": "Running the library's own source of to_markdown (every node and mark class, markdown_helpers, check_type_match and is_type_of) on any document obtained by parsing gives exactly the value or the exception that the other properties describe. While doing so it never modifies the document or a list reachable from it, never modifies a list known under two names, never reads a variable before assigning it, and it ends within at most 2*depth+2 nested calls of library functions. Omitting ignore_error means errors are not ignored.", "quantifier": "every parsed document of any shape and depth, both error modes, every nesting level, every mark on any text, every list of types", "why_tests_cant": "A test compares outputs of some documents; that no branch of any class's code touches the document, fails with an unbound variable or recurses deeper needs all documents.", "anchors": ["atlas_doc_parser/markdown_helpers.py", "atlas_doc_parser/type_enum.py:check_type_match", "atlas_doc_parser/mark_or_node.py:BaseMarkOrNode.is_type_of", "atlas_doc_parser/mark_or_node.py:BaseNode.to_markdown", "atlas_doc_parser/mark_or_node.py:BaseMark.to_markdown", "atlas_doc_parser/nodes", "atlas_doc_parser/marks"]}
{"id": "C72", "title": "Reading and writing: their source text does what the parsing properties say", "statement": "Running the library's own source of parse_node, parse_mark, from_dict (of every node and mark class), to_dict, to_kwargs, get_fields and is_opt gives, for any value handed in, exactly the object or the exception, and exactly the warnings in the same order, that the other properties describe; and for any document obtained by parsing exactly the dictionary they describe. This holds for any sequence of such calls in one process, whatever the module-level cache of fields has accumulated. While doing so the code never changes the dictionary it was given or a list or dictionary that has two names, never reads a variable before assigning it, and needs at most (nesting of the input)+6 nested calls to read and depth+3 to write.", "quantifier": "every Python/JSON value as input, every node and mark class, warnings printed or not, every document obtained by parsing, every history of calls", "why_tests_cant": "Tests see some inputs in one order; that the source agrees with the specification on every input and after every history of calls, and never mutates the caller's data, needs all of them.", "anchors": ["atlas_doc_parser/mark_or_node.py:Base.get_fields", "atlas_doc_parser/mark_or_node.py:Base.to_dict", "atlas_doc_parser/mark_or_node.py:BaseMark.from_dict", "atlas_doc_parser/mark_or_node.py:BaseMark.to_dict", "atlas_doc_parser/mark_or_node.py:BaseNode.from_dict", "atlas_doc_parser/mark_or_node.py:BaseNode.to_dict", "atlas_doc_parser/nodes/parse_node.py:parse_node", "atlas_doc_parser/marks/parse_mark.py:parse_mark"]}
{"id": "C73", "title": "The conversion as the source text does it", "statement": "For every dictionary, parse_node(v).to_markdown(ignore_error=...) as written in the source text ends in exactly one way, with a string (unless v itself is a text whose text is not a string) or one of the documented exceptions; whatever the warning setting, and the same after deleting elements of unknown type beforehand, which are what is logged; a dictionary with documented values is always converted; text of text-preserving documents is all in the Markdown in order; ignore_error=True changes nothing where strict conversion succeeds; to_dict then parse_node gives the same object back, hence the same Markdown; the length is at most quadratic in the size.", "quantifier": "every dictionary, both error modes, both warning settings", "why_tests_cant": "Ranges over all documents of any depth; and says it of the program text, not of a paraphrase of it.", "anchors": ["atlas_doc_parser/nodes/parse_node.py:parse_node", "atlas_doc_parser/mark_or_node.py", "atlas_doc_parser/markdown_helpers.py", "atlas_doc_parser/nodes", "atlas_doc_parser/marks"]}
{"id": "C74", "title": "Characters outside ASCII are all treated alike", "statement": "Replace characters outside ASCII (white space apart) in the texts and attribute values of a document by others of that kind, leaving timestamps, panel types, numbers, keys and type names alone: parsing logs the same warnings and ends the same way, and the Markdown (or the exception) is the one of the original document with the same replacement. So converting and renaming characters commute; documents that differ only in such characters give Markdown of the same length and the same ASCII and white space at every position; and every character of the Markdown is ASCII or one the document's strings contain, in particular an ASCII document gives ASCII Markdown.", "quantifier": "every dictionary and object, every relation on characters (or renaming of characters) that fixes ASCII and white space, both error modes, both warning settings", "why_tests_cant": "Ranges over all pairs of related documents and all character relations: a relational (parametricity) property; tests in one language cannot show it for every script.", "anchors": ["atlas_doc_parser/markdown_helpers.py", "atlas_doc_parser/nodes", "atlas_doc_parser/marks", "atlas_doc_parser/mark_or_node.py:BaseNode.from_dict"]}
{"id": "C75", "title": "A Markdown reader recovers the document's block structure", "statement": "Read with a Markdown reader (CommonMark block structure with GFM tables), the Markdown of a document made of paragraphs whose lines are plain text, headings of level 1-6 with one line of text, rules, code without fence lines or double empty lines, quotes, panels and expands around such blocks, bullet and ordered lists whose items hold one text and lists of the same kind (under numbers below 100), task lists (nested ones after a task), decision lists, and tables with one header row, is seen as exactly these blocks: the same kinds in the same order and nesting, with their texts, heading levels, code lines, languages, item numbers and table cells - provided that, wherever two blocks meet, one of them brings an empty line (a table or task list followed directly by a table, quote or decision list does not). The structure read is determined by the blocks.", "quantifier": "every document of the described form, of any size and nesting depth, both error modes", "why_tests_cant": "Ranges over all combinations and nestings of blocks; a test compares a string with an expected string and does not say what a reader makes of it.", "anchors": ["atlas_doc_parser/markdown_helpers.py:doc_content_to_markdown", "atlas_doc_parser/nodes/node_bullet_list.py", "atlas_doc_parser/nodes/node_ordered_list.py", "atlas_doc_parser/nodes/node_code_block.py", "atlas_doc_parser/nodes/node_blockquote.py", "atlas_doc_parser/nodes/node_panel.py", "atlas_doc_parser/nodes/node_table.py", "atlas_doc_parser/nodes/node_heading.py"]}
{"id": "C76", "title": "Which tables a Markdown reader misreads", "statement": "Read with a Markdown reader, the Markdown of a table whose first row starts with a header cell is one table with that row as header, in which every further row that starts with a header cell (a header column) is followed by a data row of dashes; rows longer than the header row lose the excess cells, so tables that differ only there are read alike; a table whose rows all start with plain cells is read as one paragraph, not as a table; and text directly after a table in a document is read as further rows of the table.", "quantifier": "every table with cells free of carriage returns, of any number of rows and columns, every text after it, both error modes", "why_tests_cant": "Ranges over all tables and needs a reader: the string itself shows nothing wrong.", "anchors": ["atlas_doc_parser/nodes/node_table.py", "atlas_doc_parser/nodes/node_table_row.py", "atlas_doc_parser/nodes/node_table_header.py", "atlas_doc_parser/markdown_helpers.py:doc_content_to_markdown"]}
{"id": "C77", "title": "Which list items a Markdown reader misreads", "statement": "Read with a Markdown reader: in a list of any size and depth whose items hold texts and lists of the same kind in any order, the texts of an item up to its first nested list become one paragraph, the text after a nested list joins the last item of that list at its greatest depth, and the items of all lists nested in an item become the items of one list below it; a list of the other kind inside an item is read as a list after the item; below a number of three or more digits a nested list is not read as a list at all but as further text of the item; and text directly after a task list in a document joins its last task.", "quantifier": "every bullet or ordered list of any size and depth whose items begin with a text, with texts and lists of the same kind in any order; for lists of the other kind, wide numbers and task lists every list with one item; every start number from 0 to 999999999, both error modes", "why_tests_cant": "Ranges over all items and texts and needs a reader: the string itself shows nothing wrong.", "anchors": ["atlas_doc_parser/nodes/node_bullet_list.py", "atlas_doc_parser/nodes/node_ordered_list.py", "atlas_doc_parser/nodes/node_list_item.py"]}
{"id": "C78", "title": "Which headings and code blocks a Markdown reader misreads", "statement": "Read with a Markdown reader: a heading of level above 6 is a paragraph that starts with the hashes; what follows a line break in a heading is a separate paragraph; a fence line inside a code block ends it, the rest of the code is read as Markdown and the closing fence opens another block; of the code blocks in a document the non-empty lines are kept in order, but where three newlines meet (counting those of the fences) empty lines of the code are lost; and code that is the first block of a bullet item leaves an empty code block in the item, the code itself being read as Markdown after the list.", "quantifier": "every heading level and text, every code text, both error modes", "why_tests_cant": "Ranges over all texts and needs a reader: the string itself shows nothing wrong.", "anchors": ["atlas_doc_parser/nodes/node_heading.py", "atlas_doc_parser/nodes/node_code_block.py", "atlas_doc_parser/nodes/node_bullet_list.py", "atlas_doc_parser/markdown_helpers.py:strip_double_empty_line"]}
{"id": "C79", "title": "What a Markdown reader sees of a paragraph's text", "statement": "Read with a Markdown reader (CommonMark inline structure with GFM strikethrough), a paragraph whose text Markdown can express shows every character of its text nodes exactly once and in order, each with exactly the formats its marks ask for (bold, italic, struck, code, link destination), line breaks where the hard breaks are, statuses as code, inline cards as links to their URL, mentions and emojis as their text, dates as written, and nothing else; the signs of the formats are not seen. Expressible means: no format twice, code marks before the others, emphasised text without white space at its ends, no special characters that have a meaning where they stand, signs next to letters of one kind only; a text without the characters \\ ` * _ ~ ! [ ] < & and without a space at its end always means itself.", "quantifier": "every parsed paragraph of such nodes, every list of marks in any order, both error modes, every classification of non-ASCII characters as punctuation", "why_tests_cant": "Ranges over all texts and mark combinations, and needs a reader of the whole inline syntax: the string itself does not show what is seen.", "anchors": ["atlas_doc_parser/nodes/node_text.py:NodeText.to_markdown", "atlas_doc_parser/markdown_helpers.py:add_style_to_markdown", "atlas_doc_parser/marks/mark_strong.py", "atlas_doc_parser/marks/mark_em.py", "atlas_doc_parser/marks/mark_strike.py", "atlas_doc_parser/marks/mark_code.py", "atlas_doc_parser/marks/mark_link.py", "atlas_doc_parser/nodes/node_paragraph.py", "atlas_doc_parser/nodes/node_hard_break.py", "atlas_doc_parser/nodes/node_status.py", "atlas_doc_parser/nodes/node_inline_card.py"]}
{"id": "C80", "title": "Which texts a Markdown reader misreads", "statement": "Read with a Markdown reader: two texts in a row with the same emphasis show the doubled sign between them; emphasised text that begins or ends with white space shows its signs and is not emphasised; with two kinds of emphasis next to a letter the outer signs are shown and do nothing; a text italic twice is bold; plain text that looks like Markdown is read as Markdown (nothing is escaped) and a backslash in front of punctuation is lost; a code mark after emphasis marks makes the signs part of the code; two back-ticks in code end it, the rest being plain text; a link after an exclamation mark is a picture and its text is not shown; a closing parenthesis in a destination ends it, the rest being shown as text; a text that contains <br> or &nbsp; is read with a line break or a no-break space in its place; and two hard breaks in a row split the paragraph in two.", "quantifier": "every text around and inside, every emphasis, every position in the paragraph", "why_tests_cant": "Ranges over all texts and needs a reader: the string itself shows nothing wrong.", "anchors": ["atlas_doc_parser/nodes/node_text.py:NodeText.to_markdown", "atlas_doc_parser/markdown_helpers.py:add_style_to_markdown", "atlas_doc_parser/marks/mark_strong.py", "atlas_doc_parser/marks/mark_em.py", "atlas_doc_parser/marks/mark_strike.py", "atlas_doc_parser/marks/mark_code.py", "atlas_doc_parser/marks/mark_link.py", "atlas_doc_parser/nodes/node_hard_break.py"]}
{"id": "C81", "title": "What a Markdown reader sees of a whole document", "statement": "Read with a Markdown reader (CommonMark block and inline structure, with GFM tables and strikethrough), the Markdown of a document as in C75 whose texts are as in C79 is seen as exactly its blocks, in order and nesting, each with every character of its inline nodes exactly once, in order and with exactly the formats its marks ask for: paragraphs, headings, list items, tasks (behind their box), decisions, quotes, panels (with their type in bold as title), expands, tables (their cells as in C82), block and embedded cards (as links) and external pictures. Hence documents that should be seen differently have different Markdown. The one difference: a hard break in a decision is not seen as a line break.", "quantifier": "every document of the described form, of any size and nesting depth, both error modes, every classification of non-ASCII characters as punctuation", "why_tests_cant": "Combines block layout, list nesting and inline formatting over all documents; a test sees one combination.", "anchors": ["atlas_doc_parser/markdown_helpers.py: content_to_markdown, doc_content_to_markdown, add_style_to_markdown", "atlas_doc_parser/nodes/*.py: to_markdown", "atlas_doc_parser/marks/*.py: to_markdown", "atlas_doc_parser/nodes/node_decision_item.py: NodeDecisionItem.to_markdown"]}
{"id": "C82", "title": "What a Markdown reader sees of a table cell", "statement": "Read with a Markdown reader, a table cell (or header cell) made of paragraphs is seen as their lines in order, each character with exactly the formats its marks ask for, pipes as pipes, spaces at the beginning of a line as no-break spaces, a line break where a hard break is (behind two spaces) and a line break behind every paragraph, also behind the last: a cell with one paragraph is seen with an empty line below its text. A cell is seen in one way only. A table whose first row alone begins with a header cell is seen as a table of these cells, rows as wide as the header.", "quantifier": "every parsed cell of paragraphs of inline nodes that Markdown can express, every table of such cells, both error modes, every classification of non-ASCII characters as punctuation", "why_tests_cant": "Ranges over all cell contents and needs the pipe rule, line breaks and entities of the cell syntax together with the whole inline syntax.", "anchors": ["atlas_doc_parser/nodes/node_table_cell.py:NodeTableCell.to_markdown", "atlas_doc_parser/nodes/node_table_header.py:NodeTableHeader.to_markdown", "atlas_doc_parser/nodes/node_table_row.py", "atlas_doc_parser/nodes/node_table.py", "atlas_doc_parser/nodes/node_paragraph.py:NodeParagraph.to_markdown", "atlas_doc_parser/nodes/node_hard_break.py"]}
{"id": "C83", "title": "The crawler can be killed and started again", "statement": "The crawler of the ADF reference asks the server for a page at most once in a run and never for a page it has stored; what is stored stays, and is an answer of the server. A complete run leaves in its directory one file for the start page and for every link of its menu - of two with the same title the later - with the article of the page, and nothing else; files of earlier runs are gone, also if the first request fails. A run that is not killed is complete exactly if every page can be had, has an article and gives a name that can be opened; otherwise it ends with an exception and leaves the first of the pages. After any history of runs killed anywhere, also within a write, and of failed requests, a complete run leaves what an undisturbed first run would have left.", "quantifier": "every behaviour of the server (a function per run), every parser, every content of the pages, every disk at the start, every history of runs complete, ended by an exception or killed between or inside actions", "why_tests_cant": "Ranges over all pages, server failures and kill points of arbitrarily many runs; the script has no tests.", "anchors": ["scripts/crawl_atlas_doc_reference/step1_crawl_document.py:main", "scripts/crawl_atlas_doc_reference/step1_crawl_document.py:get_html_by_url_with_cache", "scripts/crawl_atlas_doc_reference/step1_crawl_document.py:write_webpage", "scripts/crawl_atlas_doc_reference/step1_crawl_document.py:reset_dir_tmp"]}
{"id": "C84", "title": "The crawler takes the article and all links of the menu", "statement": "The part of a page that is saved is the first div, in document order, that has an h1 among its children, and there is an exception exactly if the page has none. The menu is the first div of the class sideNavLinksScrollable, and the links followed are all its links at any depth, each once, in document order.", "quantifier": "every tree of elements and text", "why_tests_cant": "Ranges over all page structures; the script has no tests.", "anchors": ["scripts/crawl_atlas_doc_reference/step1_crawl_document.py:extract_the_main_div", "scripts/crawl_atlas_doc_reference/step1_crawl_document.py:main"]}
{"id": "C85", "title": "The downloader of test pages leaves a file for every page", "statement": "A complete run of the downloader leaves in its directory one file for every page asked for - of two pages with the same title the later one - and nothing else. A run that is not killed is complete exactly if every page can be had and gives a name that can be opened; otherwise it ends with an exception at the first that is not so, with the pages before it there and whatever was there before the run gone.", "quantifier": "every list of page ids, every behaviour of the wiki, every disk at the start", "why_tests_cant": "Ranges over all lists of pages, titles and failures; the script has no tests.", "anchors": ["scripts/s02-download-unit-test-data/step1_download.py:main", "scripts/s02-download-unit-test-data/step1_download.py:get_page_by_id"]}
{"id": "C86", "title": "The test helpers give the working directory back", "statement": "A block of temp_cwd runs in the directory the path leads to, lets everything through that its body does or raises, and leaves the process in the directory where it was before, however it ends - if that directory still exists; if it does not, or the path leads nowhere, there is a FileNotFoundError, in the second case before anything has happened. Blocks may be nested in any way, with exceptions and relative paths. run_unit_test and run_cov_test start exactly one command with the documented arguments in the root directory, leave the working directory as it was also if that raises, and open the report, if asked, from the caller's directory with the command of the platform. Across threads this does not hold: the process ends in the directory that the last block to be left saw when it was entered.", "quantifier": "every tree of statements in blocks (nesting, exceptions, changes of directory, directories made and removed), every path, every file tree without symbolic links, every behaviour of the commands, every interleaving of blocks", "why_tests_cant": "Ranges over all nestings, exceptions and paths; a test cannot remove the directory it runs in or try all interleavings.", "anchors": ["atlas_doc_parser/vendor/pytest_cov_helper.py:temp_cwd", "atlas_doc_parser/vendor/pytest_cov_helper.py:run_unit_test", "atlas_doc_parser/vendor/pytest_cov_helper.py:run_cov_test", "atlas_doc_parser/tests/helper.py:run_unit_test", "atlas_doc_parser/tests/helper.py:run_cov_test"]}
{"id": "C87", "title": "Where blocks of a document run together", "statement": "Read with a Markdown reader, a document whose blocks follow each other without an empty line is read as if they were one: text directly after task lists is read as further lines of the last task, at its depth; text after a decision list joins the quote of the last decision; every line of text after a table becomes a table row (after a table without a header row, a line of its paragraph); texts that bring no line break join each other; task lists in a row go on like one list. Of decision lists in a row, the first decision of one joins the quote of the last decision before it. A table directly after a table becomes rows of that table, its header row and delimiter line included, cut and filled to its width. A task list directly after decisions, a table or text, and decisions directly after tasks, a table or text, stay blocks of their own. Everywhere else in the same document each block is read as it should be.", "quantifier": "every document made of such runs and of the blocks of C75 in any number and order, every runtime, both error modes; any number of texts in a run, task lists and tables of any size", "why_tests_cant": "Ranges over all documents and all orders of blocks and needs a reader: the output string itself shows nothing wrong.", "anchors": ["atlas_doc_parser/markdown_helpers.py:doc_content_to_markdown", "atlas_doc_parser/nodes/node_doc.py", "atlas_doc_parser/nodes/node_task_list.py", "atlas_doc_parser/nodes/node_decision_list.py", "atlas_doc_parser/nodes/node_table.py"]}
