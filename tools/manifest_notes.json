{
 "C01": {
  "note": "Full outcome (result, exception, log) for parse_node, K.from_dict and parse_mark. 'content' and 'marks' count as keys that matter on every class because the code walks them."
 },
 "C10": {
  "note": "Proviso: content/marks hold lists (listy) and the input is JSON (no OPT inside); refuted without it."
 },
 "C12": {
  "note": "Exact condition for the leak (iff), plus a witness that the documented 'no sentinel' claim is false."
 },
 "C09": {
  "note": "Heap model with shared sub-objects; refinement to the value model in HeapRefine.v. Refuted for Attrs.from_dict called directly."
 },
 "C05": {
  "note": "Exact acceptance condition, both over the model's class tables and over the tables generated from the source text (RepoSchema.v)."
 },
 "C45": {
  "note": "Exactness, order independence, success condition; name collisions and a 'marks' path component are shown as deviations; the repository's own modules (RepoApi.v, generated from the source) are checked to have none and to generate the committed api.py."
 },
 "C22": {
  "note": "Iff condition; the documented claim is refuted by a witness."
 },
 "C26": {
  "note": "Exact description of what is skipped; the documented recursive propagation is refuted by a witness."
 },
 "C34": {
  "note": "What really happens to a foreign list is proved for every depth; the documented indentation is refuted by witnesses."
 },
 "C58": {
  "note": "nodes/ is proved self-repairing; for mixins/ the claim is refuted (truncated stubs stay)."
 },
 "C59": {
  "note": "mixins/ does not exist at this commit, so this is what running the script does there."
 },
 "C60": {
  "note": "Case mapping of non-ASCII letters is an oracle; name theorems are for ASCII names."
 },
 "C64": {
  "note": "json is an oracle; its contract (json_text) is a hypothesis of the theorems that need it."
 },
 "C65": {
  "note": "Proved for a server with one answer; refuted for differing answers. Reading the file and writing the whole text are single steps."
 },
 "C75": {
  "note": "Blocks outside the described form: C76-C78."
 },
 "C76": {
  "note": "A finding about the renderer: the structure is not recovered from these tables."
 },
 "C77": {
  "note": "A finding about the renderer. Whole lists of any size and depth in C77_bullet_lists and C77_ordered_lists; a list of the other kind, a number too wide and a task list are stated for lists with one item."
 },
 "C78": {
  "note": "A finding about the renderer: these blocks are not recovered."
 },
 "C81": {
  "note": "For documents in C75's and C79's scope, the cells of tables in C82's."
 },
 "C82": {
  "note": "Cells with other blocks than paragraphs (lists, code blocks ...) are outside its scope: Markdown tables cannot hold them, and the renderer glues their text together."
 },
 "C83": {
  "note": "The parser, prettify and the file system's treatment of names are parameters; a server that changes its answer within a run is covered because a run asks for a page at most once."
 },
 "C85": {
  "note": "Names that leave the directory (a slash in a title) are parameters: such files are written elsewhere or refused."
 },
 "C86": {
  "note": "No symbolic links; what a command does to the directories, and whether it raises, is a parameter."
 },
 "C87": {
  "note": "A finding about the layout of documents, together with the whole-document reading that shows its extent. Not in the rules: a table directly after a task list or decisions (its delimiter line there is outside the reader's scope), and a table with a header row directly after one without."
 }
}
