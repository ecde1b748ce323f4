{"id": "C01", "title": "Graphs stay acyclic", "statement": "After any sequence of API calls on a graph obtained from NewAcyclicGraph, no vertex is its own descendant or ancestor: there is no non-empty directed path of edges from a vertex to itself.", "quantifier": "every history of API calls (mutations, queries and reductions in any order), every key/payload type, every map iteration order", "why_tests_cant": "Histories are unbounded, and loop detection depends on caches whose content depends on the whole history.", "anchors": ["pkg/dag/dag.go:AddEdge", "pkg/dag/dag.go:getDescendantsIDs"]}
{"id": "C02", "title": "Loop detection is exact", "statement": "When both ids are known, distinct and not yet connected, AddEdge(s,t) returns ErrEdgeLoop exactly when there is a path t ->* s; in every other such case it succeeds and the edge is there afterwards.", "quantifier": "every reachable graph and every pair of ids, whatever was cached by earlier queries", "why_tests_cant": "Needs 'iff' over all graphs and all cache states; a stale cache entry gives false accepts or false rejects on some history only.", "anchors": ["pkg/dag/dag.go:AddEdge"]}
{"id": "C03", "title": "Every history behaves like a plain graph (refinement)", "statement": "Every API call returns what a cache-free abstract graph (a finite map of vertices and a set of edges) returns: same value, same error, for every call of every history; ordered results are compared as BFS linearisations and maps as finite maps.", "quantifier": "every finite history of calls from NewAcyclicGraph and every map iteration order of every range loop", "why_tests_cant": "The claim is about all interleavings of mutations with cache-filling queries.", "anchors": ["pkg/dag/dag.go:AcyclicGraph"]}
{"id": "C04", "title": "Ancestor/descendant queries are exact", "statement": "GetAncestors(v) (GetDescendants(v)) returns exactly the vertices with a non-empty path to (from) v, each with its current payload, and an error exactly when v is empty or unknown.", "quantifier": "every reachable graph, every id, every cache content produced by earlier calls", "why_tests_cant": "Reachability is a transitive closure; memoised values must be right after every later edge/vertex deletion.", "anchors": ["pkg/dag/dag.go:GetAncestors", "pkg/dag/dag.go:GetDescendants", "pkg/dag/dag.go:getAncestorsIDs", "pkg/dag/dag.go:getDescendantsIDs"]}
{"id": "C05", "title": "Failed calls change nothing", "statement": "If a mutating call (AddVertex, DeleteVertex, AddEdge, DeleteEdge) returns an error then every later call returns what it would have returned had the failed call not been made.", "quantifier": "every reachable graph, every failing call, every continuation of calls", "why_tests_cant": "Failed AddEdge still mutates the caches; showing that this is never observable needs all continuations.", "anchors": ["pkg/dag/dag.go:AddEdge", "pkg/dag/dag.go:DeleteEdge", "pkg/dag/dag.go:DeleteVertex", "pkg/dag/dag.go:AddVertex"]}
{"id": "C06", "title": "DeleteVertex removes exactly one vertex and its edges", "statement": "A successful DeleteVertex(v) removes v and exactly the edges that start or end at v; all other vertices, payloads and edges remain; it succeeds exactly when v is non-empty and known.", "quantifier": "every reachable graph and every id", "why_tests_cant": "Frame conditions ('nothing else changed') quantify over all other vertices and edges.", "anchors": ["pkg/dag/dag.go:DeleteVertex"]}
{"id": "C07", "title": "AddEdge and DeleteEdge change exactly one edge", "statement": "A successful AddEdge(s,t) (DeleteEdge(s,t)) adds (removes) the edge s->t and changes no other edge and no vertex; DeleteEdge succeeds exactly when the edge exists.", "quantifier": "every reachable graph and every pair of ids", "why_tests_cant": "Frame conditions over unbounded graphs.", "anchors": ["pkg/dag/dag.go:AddEdge", "pkg/dag/dag.go:DeleteEdge"]}
{"id": "C08", "title": "AddVertex adds exactly one isolated vertex", "statement": "A successful AddVertex(v,x) adds v with payload x, without parents, children, ancestors or descendants - also when v had existed with edges and been deleted before; on a duplicate the old payload is kept.", "quantifier": "every reachable graph, every id and payload", "why_tests_cant": "Re-adding a deleted id is only wrong if some history leaves stale adjacency or cache entries behind.", "anchors": ["pkg/dag/dag.go:AddVertex", "pkg/dag/dag.go:DeleteVertex"]}
{"id": "C09", "title": "Error precedence", "statement": "Vertex calls report empty id before unknown id. Edge calls report, in this order: empty source, empty target, identical ids, unknown source, unknown target, and only then the edge-specific error (duplicate before loop).", "quantifier": "every graph and every argument pair, including those violating several conditions at once", "why_tests_cant": "Combinations of simultaneous violations over all graphs.", "anchors": ["pkg/dag/dag.go:checkVertexID", "pkg/dag/dag.go:checkEdgeIDs"]}
{"id": "C10", "title": "Parents, children and IsEdge agree", "statement": "s is listed by GetParents(t) iff t is listed by GetChildren(s) iff IsEdge(s,t) is true; all listed ids are vertices of the graph and carry their payload.", "quantifier": "every reachable graph and every pair of ids", "why_tests_cant": "The graph stores each edge twice (in two maps); consistency is an invariant of all histories.", "anchors": ["pkg/dag/dag.go:GetParents", "pkg/dag/dag.go:GetChildren", "pkg/dag/dag.go:IsEdge"]}
{"id": "C11", "title": "Roots and leaves", "statement": "GetRoots (GetLeaves) returns exactly the vertices without parents (children), with payloads; a non-empty graph has at least one root and one leaf, and every vertex is a root or has a root ancestor.", "quantifier": "every reachable graph", "why_tests_cant": "Existence of a root follows from finiteness plus acyclicity, not from any finite set of examples.", "anchors": ["pkg/dag/dag.go:GetRoots", "pkg/dag/dag.go:GetLeaves"]}
{"id": "C12", "title": "Order and size are exact counts", "statement": "GetOrder is the number of vertices and GetSize the number of (source,target) pairs for which IsEdge is true.", "quantifier": "every reachable graph", "why_tests_cant": "Counting must be right for leftover empty adjacency sets after deletions in any history.", "anchors": ["pkg/dag/dag.go:GetOrder", "pkg/dag/dag.go:GetSize"]}
{"id": "C13", "title": "Ancestor/descendant duality", "statement": "a is among GetAncestors(b) iff b is among GetDescendants(a).", "quantifier": "every reachable graph and every pair of vertices, with independently filled caches", "why_tests_cant": "The two answers come from two independently maintained caches.", "anchors": ["pkg/dag/dag.go:GetAncestors", "pkg/dag/dag.go:GetDescendants"]}
{"id": "C14", "title": "Transitive reduction preserves reachability", "statement": "ReduceTransitively keeps all vertices and payloads, only removes edges, and leaves GetAncestors/GetDescendants of every vertex unchanged.", "quantifier": "every reachable graph with every cache content and iteration order", "why_tests_cant": "Edges are removed one after the other while reading a closure computed before; needs induction over DAGs.", "anchors": ["pkg/dag/dag.go:ReduceTransitively"]}
{"id": "C15", "title": "Transitive reduction is minimal", "statement": "After ReduceTransitively no edge u->v is implied by another path u ->+ v; the result is the unique smallest such graph: it is contained in every graph with the same reachability; reducing twice equals reducing once.", "quantifier": "every reachable graph with every cache content and iteration order", "why_tests_cant": "Minimality ranges over all graphs with the same closure; depends on caches being completely populated.", "anchors": ["pkg/dag/dag.go:ReduceTransitively"]}
{"id": "C16", "title": "Ordered queries are breadth-first and complete", "statement": "GetOrderedAncestors(v)/GetOrderedDescendants(v) list every ancestor/descendant exactly once, nothing else, ordered by non-decreasing distance from v.", "quantifier": "every reachable graph, every vertex, every iteration order of the adjacency maps", "why_tests_cant": "The claim is about distances in arbitrary graphs under arbitrary sibling orders.", "anchors": ["pkg/dag/dag.go:GetOrderedAncestors", "pkg/dag/dag.go:GetOrderedDescendants", "pkg/dag/dag.go:walkAncestors", "pkg/dag/dag.go:walkDescendants"]}
{"id": "C17", "title": "Walkers deliver a prefix of a breadth-first order under every schedule", "statement": "For every interleaving of the walker goroutine and a consumer, the ids received so far are a prefix of a duplicate-free breadth-first enumeration of the ancestors/descendants; if the consumer never signals, keeps receiving and the graph is not modified, the walker ends, everything has been delivered and the channel is closed.", "quantifier": "every schedule of walker and consumer steps", "why_tests_cant": "Concurrency schedules.", "anchors": ["pkg/dag/dag.go:AncestorsWalker", "pkg/dag/dag.go:DescendantsWalker"]}
{"id": "C18", "title": "Stopping a walker", "statement": "After the consumer's stop signal has been sent, at most one further id is delivered and a consumer that keeps receiving sees the channel closed. A consumer that signals and stops receiving leaves no goroutine behind.", "quantifier": "every schedule of walker and consumer steps", "why_tests_cant": "Concurrency schedules; the leak happens only in one interleaving.", "anchors": ["pkg/dag/dag.go:walkAncestors", "pkg/dag/dag.go:walkDescendants"]}
{"id": "C19", "title": "Signalling a walker never panics", "statement": "Sending the stop signal on the channel returned by a walker is safe at any moment.", "quantifier": "every schedule of walker and consumer steps", "why_tests_cant": "Concurrency schedules: depends on whether the walker closed the channel first.", "anchors": ["pkg/dag/dag.go:AncestorsWalker", "pkg/dag/dag.go:DescendantsWalker"]}
{"id": "C20", "title": "No call panics or runs forever", "statement": "On a graph built through the API every call terminates without panic (nil-map writes, unbounded recursion).", "quantifier": "every reachable graph, every call, every argument", "why_tests_cant": "Termination of the mutually cached recursion needs acyclicity, an invariant of all histories.", "anchors": ["pkg/dag/dag.go:getAncestorsIDs", "pkg/dag/dag.go:getDescendantsIDs", "pkg/dag/dag.go:AddEdge"]}
{"id": "C21", "title": "Results do not depend on map iteration order", "statement": "Running the same history under two different sets of map iteration orders gives the same results for every call except the sibling order in ordered queries and String.", "quantifier": "every history and every pair of iteration-order assignments", "why_tests_cant": "Go randomises iteration; tests sample a few orders.", "anchors": ["pkg/dag/dag.go"]}
{"id": "C22", "title": "Queries are observationally pure", "statement": "Inserting any query call (Get*, IsEdge, walkers, String) anywhere in a history does not change any later result.", "quantifier": "every history, every inserted query, every continuation", "why_tests_cant": "Queries fill the caches.", "anchors": ["pkg/dag/dag.go:GetAncestors", "pkg/dag/dag.go:GetDescendants"]}
{"id": "C23", "title": "Set operations compute the set-theoretic results", "statement": "For sets built with make/Add/Delete: Includes is membership; Intersection, Difference and Filter contain exactly the expected elements; nil sets behave as empty sets for reading; List has every element exactly once; Copy is equal to and independent of its source; the operands are not modified.", "quantifier": "all sets, all element types with reflexive equality, all iteration orders", "why_tests_cant": "All sets and all elements.", "anchors": ["pkg/dag/set.go:Intersection", "pkg/dag/set.go:Difference", "pkg/dag/set.go:Filter", "pkg/dag/set.go:List", "pkg/dag/set.go:Copy"]}
{"id": "C24", "title": "String lists the whole graph", "statement": "String() has a header with the exact vertex and edge counts and then one line per vertex and one line per edge, each exactly once.", "quantifier": "every reachable graph, every iteration order", "why_tests_cant": "All graphs.", "anchors": ["pkg/dag/dag.go:String"]}
{"id": "C25", "title": "Clone is a structural copy", "statement": "Clone of any AST node is structurally equal to its source: same node type, same position, same scalar fields, nil/empty slices kept apart, recursively equal sub-nodes, so it formats to the same text.", "quantifier": "every AST value of every node type (also hand-built ones)", "why_tests_cant": "Trees of unbounded depth over ~45 mutually recursive node types.", "anchors": ["pkg/etx/*.go:Clone", "pkg/etx/utils.go:cloneCollection"]}
{"id": "C26", "title": "Clone is deep", "statement": "A clone shares no node and no slice with its source, so mutating one never affects the other.", "quantifier": "every AST value", "why_tests_cant": "Sharing is invisible to structural equality checks; must hold at every depth.", "anchors": ["pkg/etx/value.go:Value.Clone", "pkg/etx/func.go:FuncDecl.Clone"]}
{"id": "C27", "title": "Clone drops parent references", "statement": "No node of a clone refers to a node of the source as its Parent.", "quantifier": "every AST value", "why_tests_cant": "As above.", "anchors": ["pkg/etx/ast.go:ASTNode.Clone", "pkg/etx/value.go:Value.Clone"]}
{"id": "C28", "title": "Children lists exactly the direct sub-nodes", "statement": "Children() returns every non-nil direct sub-node exactly once, in a fixed order, and nothing else.", "quantifier": "every AST value in the shape the parser builds", "why_tests_cant": "All node types and all combinations of optional fields.", "anchors": ["pkg/etx/*.go:Children"]}
{"id": "C29", "title": "Parent references after parsing", "statement": "After a successful parse (or UpdateParentRefs) every node below a root item has as Parent the node that directly contains it, and root items have no parent.", "quantifier": "every AST value", "why_tests_cant": "Recursion over unbounded trees; depends on Children of every type.", "anchors": ["pkg/etx/parser.go:updateParentRefs", "pkg/etx/ast.go:UpdateParentRefs"]}
{"id": "C30", "title": "Formatting a parsed file never panics", "statement": "FormattedString succeeds on every AST the parser can return.", "quantifier": "every AST in parser shape", "why_tests_cant": "All combinations of optional parts; panics sit in default branches.", "anchors": ["pkg/etx/*.go:FormattedString"]}
{"id": "C31", "title": "Indentation", "statement": "indent(s,p) inserts p in front of exactly the non-empty lines of s and changes nothing else: removing p again from every non-empty line gives s back, the number of lines is unchanged, indent distributes over line concatenation and nested indents compose.", "quantifier": "all byte strings and prefixes", "why_tests_cant": "All strings.", "anchors": ["pkg/etx/utils.go:indent", "pkg/etx/utils.go:indentBytes"]}
{"id": "C32", "title": "Formatting round-trips", "statement": "Parsing the output of FormattedString of a parsed file succeeds and yields the same AST up to positions and blank lines.", "quantifier": "every parseable input", "why_tests_cant": "All programs.", "anchors": ["pkg/etx/*.go:FormattedString", "pkg/etx/parser.go:ParseString"]}
{"id": "C33", "title": "Formatting preserves expression structure", "statement": "Two expressions with different tree structure have different formatted text; in particular parentheses that matter are kept.", "quantifier": "every pair of expressions", "why_tests_cant": "All trees.", "anchors": ["pkg/etx/expr.go:ExprPrimary.FormattedString"]}
{"id": "C34", "title": "Number literals: octal normalisation", "statement": "Capturing a number token rewrites it only when it consists of a leading 0 followed by digits/underscores, to the same digits with prefix 0o; the rewrite is idempotent, yields again a number token, and the value denoted is the octal value of the digits.", "quantifier": "every number token", "why_tests_cant": "All digit strings.", "anchors": ["pkg/etx/value.go:ValueNumber.Capture"]}
{"id": "C35", "title": "Boolean and heredoc-delimiter tokens", "statement": "true/false literals are captured and printed back unchanged; every heredoc opener the lexer accepts is captured without panic into its dash flag and delimiter, and printing gives the opener back.", "quantifier": "every token accepted by the corresponding lexer rule", "why_tests_cant": "All delimiters.", "anchors": ["pkg/etx/value.go:HeredocDelimiter.Capture", "pkg/etx/value.go:ValueBool.Capture"]}
{"id": "C36", "title": "Lexing is lossless", "statement": "The texts of all tokens produced for an input, concatenated (including elided white space), give the input back, and each token is non-empty.", "quantifier": "every input string", "why_tests_cant": "All inputs.", "anchors": ["pkg/etx/lexer.go:lexRules"]}
{"id": "C37", "title": "Lexing terminates and is deterministic", "statement": "Lexing any input stops with the token list or an error after at most one step per input byte; the result is a function of the input.", "quantifier": "every input string", "why_tests_cant": "All inputs.", "anchors": ["pkg/etx/lexer.go:lexRules"]}
{"id": "C38", "title": "Token positions", "statement": "The position attached to each token is its byte offset and the line/column of its first character in the input.", "quantifier": "every input string", "why_tests_cant": "All inputs.", "anchors": ["pkg/etx/lexer.go:lexRules"]}
{"id": "C39", "title": "Lexer modes are balanced", "statement": "The lexer never pops the root mode; at the end of a successfully lexed input every string, interpolation and heredoc that was opened has been closed in LIFO order - an interpolation's closing brace returns to exactly the string it interrupted.", "quantifier": "every input string", "why_tests_cant": "Nesting depth is unbounded.", "anchors": ["pkg/etx/lexer.go:lexRules"]}
{"id": "C40", "title": "Operators are lexed by longest match", "statement": "Every operator of the language, when followed by a character that cannot extend it, is lexed as the one token of that operator.", "quantifier": "every operator, every following text", "why_tests_cant": "All following texts; depends on rule order.", "anchors": ["pkg/etx/lexer.go:lexRules"]}
{"id": "C41", "title": "Identifiers and keywords", "statement": "A maximal identifier is lexed as one token, as a keyword exactly if it equals if/else/switch/case.", "quantifier": "every identifier and every following text", "why_tests_cant": "All identifiers; regex word-boundary behaviour.", "anchors": ["pkg/etx/lexer.go:lexRules"]}
{"id": "C42", "title": "String bodies", "statement": "Every sequence of characters between quotes that contains no unescaped closing quote and no interpolation opener is lexed as text and the string is accepted.", "quantifier": "every string body", "why_tests_cant": "All strings.", "anchors": ["pkg/etx/lexer.go:lexRules"]}
{"id": "C43", "title": "Operator precedence", "statement": "Parsing an expression written with binary operators yields the tree given by the documented precedence table.", "quantifier": "every sequence of operators and operands", "why_tests_cant": "All expressions.", "anchors": ["pkg/etx/expr.go", "pkg/etx/README.md"]}
{"id": "C44", "title": "Operator associativity", "statement": "Operators of the same documented level associate left to right: a - b - c means (a - b) - c.", "quantifier": "every sequence of operators and operands", "why_tests_cant": "All expressions.", "anchors": ["pkg/etx/expr.go", "pkg/etx/README.md"]}
{"id": "C45", "title": "Parsing is total and deterministic", "statement": "For every token sequence the parser returns either an AST or an error, and always the same one.", "quantifier": "every token sequence", "why_tests_cant": "All inputs; recursion and repetition must terminate.", "anchors": ["pkg/etx/parser.go:ParseString"]}
{"id": "C46", "title": "Parse accounts for all input", "statement": "A successful parse consumes every token: no trailing input is silently dropped.", "quantifier": "every input", "why_tests_cant": "All inputs.", "anchors": ["pkg/etx/parser.go:ParseString"]}
{"id": "C47", "title": "Callers cannot corrupt a graph through returned collections", "statement": "Mutating a map or slice returned by any graph query never changes the graph.", "quantifier": "every reachable graph, every query, every mutation of the result", "why_tests_cant": "Aliasing over all histories.", "anchors": ["pkg/dag/dag.go:GetVertices", "pkg/dag/dag.go:GetAncestors", "pkg/dag/dag.go:loadFromCache"]}
{"id": "C48", "title": "Clone does not modify its source", "statement": "Clone leaves every node reachable from its source, and every other existing node, unchanged.", "quantifier": "every AST heap and every node", "why_tests_cant": "All heaps.", "anchors": ["pkg/etx/*.go:Clone"]}
{"id": "C49", "title": "A timely stop signal ends the walker", "statement": "If the stop signal is sent while the walker is not blocked in its send, the walker ends without any further receive: in every state it has ended or can take a step of its own.", "quantifier": "every schedule of walker and consumer steps", "why_tests_cant": "Concurrency schedules.", "anchors": ["pkg/dag/dag.go:walkAncestors", "pkg/dag/dag.go:walkDescendants"]}
{"id": "C50", "title": "Closing the signal channel is fatal", "statement": "If the consumer closes the signal channel instead of sending on it before everything has been delivered, the walker goroutine cannot end without a panic.", "quantifier": "every schedule of walker and consumer steps", "why_tests_cant": "Concurrency schedules.", "anchors": ["pkg/dag/dag.go:AncestorsWalker", "pkg/dag/dag.go:DescendantsWalker"]}
{"id": "C51", "title": "Delivery after the stop signal", "statement": "After the stop signal at most one further id is delivered, and as long as the consumer goes on receiving the walker takes a bounded number of steps until it has closed the channel.", "quantifier": "every schedule of walker and consumer steps", "why_tests_cant": "Concurrency schedules.", "anchors": ["pkg/dag/dag.go:walkAncestors", "pkg/dag/dag.go:walkDescendants"]}
{"id": "C52", "title": "What a clone shares with its source", "statement": "The clone of a node has in common with the memory that existed before exactly the Type of each FuncDecl and whatever the Heredoc of a Value refers to; everything else in it is newly allocated, and no two parts of it coincide unless they did in the source.", "quantifier": "every AST heap and every node", "why_tests_cant": "All heaps.", "anchors": ["pkg/etx/*.go:Clone"]}
{"id": "C53", "title": "Which nodes of a clone have a parent", "statement": "The clone itself has no parent; a node in it has a parent only if it is shared with the source or is the copy of a Heredoc of a Value, which takes over the parent of the original.", "quantifier": "every AST heap and every node", "why_tests_cant": "All heaps.", "anchors": ["pkg/etx/*.go:Clone", "pkg/etx/value.go:Clone"]}
{"id": "C54", "title": "What Children leaves out", "statement": "Children lists every direct sub-node exactly once except ExprPostfix.Post.", "quantifier": "every AST heap and every node", "why_tests_cant": "All heaps.", "anchors": ["pkg/etx/*.go:Children"]}
{"id": "C55", "title": "What UpdateParentRefs does exactly", "statement": "UpdateParentRefs sets the parents of all nodes reached without passing through ExprPostfix.Post - none for root items, the containing node otherwise - and changes nothing else.", "quantifier": "every AST heap", "why_tests_cant": "All heaps.", "anchors": ["pkg/etx/parser.go:updateParentRefs", "pkg/etx/ast.go:UpdateParentRefs"]}
{"id": "C56", "title": "Exactly which strings are lexed", "statement": "A text between two quotes is lexed as a string without interpolation if and only if it consists of characters other than $ % backslash and quotes, of the other quote, of a backslash and a character that is neither newline nor u, of backslash u and four hex digits, and of $${ and %%{.", "quantifier": "every text, both quotes", "why_tests_cant": "All strings.", "anchors": ["pkg/etx/lexer.go:lexRules"]}
{"id": "C57", "title": "Brackets of the lexer close innermost first", "statement": "Every token that closes a string, heredoc, interpolation or unicode escape closes the innermost one that is open, is of the same kind and has the quote or delimiter it was opened with; between them only tokens of that mode occur; only the end of the input leaves something open.", "quantifier": "every input string", "why_tests_cant": "Nesting depth is unbounded.", "anchors": ["pkg/etx/lexer.go:lexRules"]}
{"id": "C58", "title": "A keyword followed by a dash", "statement": "An identifier with dashes whose first word is a keyword is lexed as the keyword, and the dash starts the next token.", "quantifier": "every such identifier and every following text", "why_tests_cant": "All identifiers.", "anchors": ["pkg/etx/lexer.go:lexRules"]}
{"id": "C59", "title": "Exactly which number literals are accepted", "statement": "A number token is accepted if and only if it is a hexadecimal, binary, octal or decimal literal with single underscores only between digits (or after the prefix) and an exponent in range, where a leading 0 means octal; the value is the one its digits denote, and it is unique; every such literal is lexed as one token.", "quantifier": "every number token", "why_tests_cant": "All digit strings.", "anchors": ["pkg/etx/value.go:ValueNumber.Capture", "pkg/etx/lexer.go:lexRules"]}
{"id": "C60", "title": "Parsed trees are well formed", "statement": "Every AST the parser returns is an AST struct whose fields all have the types of their declarations, in which at most one of the alternatives of a node is set and no slice holds a nil pointer.", "quantifier": "every input", "why_tests_cant": "All inputs.", "anchors": ["pkg/etx/parser.go:Parse", "pkg/etx/*.go"]}
{"id": "C61", "title": "A parsed file leaves nothing open", "statement": "If a file can be parsed, every string, heredoc, interpolation and unicode escape in it has been closed, innermost first.", "quantifier": "every input", "why_tests_cant": "Nesting depth is unbounded, and the lexer alone does not check it.", "anchors": ["pkg/etx/parser.go:Parse", "pkg/etx/lexer.go:lexRules"]}
{"id": "C62", "title": "Operators associate right to left", "statement": "In every parsed file operators of the same documented level are read right to left, so two in a row are never read as documented; the precedence table and this direction leave exactly one reading of a sequence of operands and operators.", "quantifier": "every input and every binary expression in it", "why_tests_cant": "All expressions.", "anchors": ["pkg/etx/expr.go", "pkg/etx/README.md"]}
{"id": "C63", "title": "When formatting panics", "statement": "FormattedString of a parsed file panics if and only if some node it prints is an entry of an enum, an object or a map that is a comment or an empty line; otherwise it returns a text. It terminates on every AST, parsed or not.", "quantifier": "every parseable input, every AST", "why_tests_cant": "All combinations of optional parts.", "anchors": ["pkg/etx/*.go:FormattedString"]}
{"id": "C64", "title": "Graphs share no memory", "statement": "No set is stored in two places of a graph, no call touches memory that was there before the graph was made, and a client gets the same results as if all maps and sets were copied on assignment.", "quantifier": "every client program of API calls and writes to returned collections, every initial memory", "why_tests_cant": "Aliasing over all histories.", "anchors": ["pkg/dag/dag.go", "pkg/dag/set.go"]}
{"id": "C65", "title": "Returned collections are snapshots", "statement": "Every map or slice that a call returns is a new one, and no later call changes it.", "quantifier": "every client program, every result, every later history", "why_tests_cant": "Aliasing over all histories.", "anchors": ["pkg/dag/dag.go:GetVertices", "pkg/dag/dag.go:GetAncestors", "pkg/dag/dag.go:loadFromCache"]}
{"id": "C66", "title": "Children come in source order", "statement": "For every node of a parsed file, Children lists the sub-nodes in the order in which they occur in the text: those with a position are built from disjoint stretches of the file's tokens, one after the other, so their offsets never decrease. The only children without a position are truth values, numbers and the empty structs of comments and empty lines.", "quantifier": "every input and every node of its AST, wherever it is in memory", "why_tests_cant": "All combinations of optional parts of every node.", "anchors": ["pkg/etx/*.go:Children"]}
{"id": "C67", "title": "Parse returns a fresh AST with its parents set", "statement": "Parse, ParseString and ParseBytes always return, either nil with the memory unchanged, or the AST of the text in new memory, in which no two nodes share anything; the items have no parent, below them every node has the node containing it as its parent, except in an ExprPostfix.Post, where no node has one. No memory that was in use is changed; parsing again gives an equal AST that shares nothing with the first.", "quantifier": "every input, every memory, every way of allocating", "why_tests_cant": "All inputs and all heaps.", "anchors": ["pkg/etx/parser.go:Parse", "pkg/etx/parser.go:updateParentRefs", "pkg/etx/ast.go:UpdateParentRefs"]}
{"id": "C68", "title": "Layout does not matter", "statement": "Two inputs with the same tokens, aside from white space, the kind of quotes around a string and different spellings of the same number, give the same AST up to positions, or both give an error.", "quantifier": "every pair of inputs, every pair of token sequences", "why_tests_cant": "All inputs.", "anchors": ["pkg/etx/parser.go:Parse", "pkg/etx/lexer.go"]}
{"id": "C69", "title": "What one token of lookahead settles is found", "statement": "If a file has a description by the grammar in which, at every step, no earlier alternative, no omitted option and no further repetition can start with the next token, the file is accepted and its AST is the tree of that description; there is no other such description.", "quantifier": "every input, every such description", "why_tests_cant": "All inputs; the search of the parser with its branches and its lookahead limit.", "anchors": ["pkg/etx/parser.go:Parse", "pkg/etx/*.go"]}
{"id": "C70", "title": "Everything the grammar describes is accepted", "statement": "Every file that the struct tags of the AST types describe is accepted, and they describe it in only one way.", "quantifier": "every input, every description by the grammar", "why_tests_cant": "All inputs.", "anchors": ["pkg/etx/parser.go:Parse", "pkg/etx/func.go:Func", "pkg/etx/*.go"]}
{"id": "C71", "title": "Files of declarations survive formatting", "statement": "If a file holds only declarations and empty lines, and the declarations are plain (no if, switch, parentheses, heredoc, list, map, escape or interpolation), FormattedString gives a text that is parsed to the same declarations in the same order, up to positions; so it does when repeated any number of times, and two such files with the same formatted text hold the same declarations.", "quantifier": "every such input, any number of declarations and empty lines, any number of repetitions", "why_tests_cant": "All inputs; the parser's search across items and the shape of the printed layout.", "anchors": ["pkg/etx/ast.go:FormattedString", "pkg/etx/decl.go:FormattedString", "pkg/etx/parser.go:Parse"]}
{"id": "C72", "title": "Formatting forgets the layout", "statement": "FormattedString does not depend on positions; two inputs with the same tokens, aside from white space, the kind of quotes and the spelling of numbers, have the same formatted text, or neither has one.", "quantifier": "every AST; every pair of inputs", "why_tests_cant": "All inputs.", "anchors": ["pkg/etx/*.go:FormattedString", "pkg/etx/parser.go:Parse"]}
{"id": "C73", "title": "Formatting twice is formatting once", "statement": "If s is formatted to u and u is formatted to v, then u = v.", "quantifier": "every input", "why_tests_cant": "All inputs, repeated any number of times.", "anchors": ["pkg/etx/ast.go:FormattedString", "pkg/etx/ast.go:RootItem"]}
{"id": "C74", "title": "A final newline does not matter", "statement": "If a file without a newline at its end is accepted, it is also accepted with one.", "quantifier": "every input", "why_tests_cant": "All inputs.", "anchors": ["pkg/etx/lexer.go", "pkg/etx/parser.go:Parse"]}
{"id": "C75", "title": "Trees of functions, types and expressions survive formatting", "statement": "If an AST, built by the parser or by a program, holds declarations, functions, types, line comments and empty lines with any expressions, and none of the constructs that cannot be written down (blocks, attributes, maps, heredocs, escapes and interpolations, double quotes or line feeds in strings, parentheses, comments in lists and types, a function type as the only result, an empty if with an else, a member right after a name or a number), then FormattedString gives a text that is parsed to the same AST, up to positions and empty lines. So two such ASTs with the same formatted text are the same up to positions and empty lines.", "quantifier": "every such AST of any size and depth", "why_tests_cant": "All trees, including those no parser makes; the lexer, the search of the parser and the printed layout together.", "anchors": ["pkg/etx/*.go:FormattedString", "pkg/etx/parser.go:Parse", "pkg/etx/lexer.go"]}
{"id": "C76", "title": "Ordinary source files survive formatting", "statement": "If a file is accepted and its AST holds none of a list of constructs (blocks, attributes, maps, heredocs, comments of several lines, comments and empty lines in types, comments in lists, escapes and interpolations, double quotes or line feeds in strings, parentheses around expressions, a function type as the only result, an empty if with an else, members right after a name, a number or an index, names that are reserved, carriage returns in empty lines), FormattedString gives a text that is accepted, and its AST is the same up to positions and empty lines.", "quantifier": "every accepted input without those constructs", "why_tests_cant": "All inputs; that everything the parser makes of them is what the formatter and the parser need.", "anchors": ["pkg/etx/*.go:FormattedString", "pkg/etx/parser.go:Parse", "pkg/etx/lexer.go"]}
{"id": "C77", "title": "What a file says stays the same however often it is formatted", "statement": "Take an AST that can be written down (C75) or an accepted file of ordinary constructs (C76). Format it, parse the text, format that AST, and so on, any number of times: every text is accepted, every AST can be formatted, and every AST is the first one up to positions and empty lines.", "quantifier": "every such AST and file; any number of repetitions", "why_tests_cant": "All inputs and unbounded repetition; the AST of the formatted text must again be one that survives.", "anchors": ["pkg/etx/*.go:FormattedString", "pkg/etx/parser.go:Parse", "pkg/etx/lexer.go"]}
{"id": "C78", "title": "Formatting again changes only the layout", "statement": "Two ASTs that can be written down and are the same up to positions and empty lines have formatted texts that differ only in line feeds and tabs. So if an accepted file of ordinary constructs is formatted, and formatted again any number of times, the texts differ from the first one only in line feeds and tabs.", "quantifier": "every pair of such ASTs; every such file; any number of repetitions", "why_tests_cant": "All inputs and unbounded repetition. C73 shows that the texts do differ.", "anchors": ["pkg/etx/*.go:FormattedString", "pkg/etx/parser.go:Parse"]}
{"id": "C79", "title": "The lookahead limit", "statement": "The parser gives up a branch that fails only if it has read at most 50 tokens; otherwise the whole input is rejected. A file accepted with some limit is accepted with every larger limit, with the same AST; the limit makes no difference to files of at most that many tokens; and the limit of 50 does reject files that a larger one accepts. With no limit does the parser panic or fail to end.", "quantifier": "every input, every pair of limits", "why_tests_cant": "All inputs and limits; where a branch fails depends on everything before.", "anchors": ["pkg/etx/parser.go:11-19", "pkg/etx/parser.go:Parse", "pkg/etx/type.go", "pkg/etx/block.go"]}
{"id": "C80", "title": "The Value of a number is the number", "statement": "The Value of a number literal is the number it denotes, of any size and precision.", "quantifier": "every number token", "why_tests_cant": "All literals.", "anchors": ["pkg/etx/value.go:150-176"]}
{"id": "C81", "title": "What the Value of a number is", "statement": "If the last digit of a number literal stands for 10^-50 to 10^50, the literal is accepted and its Value is the number of 53 bits that is nearest to what the literal denotes, and of two such numbers the one whose last bit is 0; so literals that denote the same number have the same Value. If the last digit stands for 10^e with |e| < 2^28, the literal is accepted and its Value is off by at most one part in 2^52. With larger exponents an accepted literal can have an infinite Value, or the Value 0 though it is not 0.", "quantifier": "every number token of fewer than 2^28 (2^27) characters", "why_tests_cant": "All literals; the rounding errors in the power of 5 and the last rounding together.", "anchors": ["pkg/etx/value.go:150-176"]}
{"id": "C82", "title": "Queries may run in parallel", "statement": "Goroutines may query one graph at the same time without data races.", "quantifier": "every graph, all queries, every interleaving", "why_tests_cant": "Races show only in some interleavings.", "anchors": ["pkg/dag/dag.go:getAncestorsIDs", "pkg/dag/dag.go:getDescendantsIDs", "pkg/dag/dag.go:loadFromCache"]}
{"id": "C83", "title": "Which queries may run in parallel", "statement": "A client has made a graph with any calls. Then goroutines make any calls that do not change the graph, and walkers run. If only one goroutine calls GetAncestors or the ancestors cache has every vertex, and the same for GetDescendants and its cache, then no two goroutines are ever about to access the same map or field, one of them to change it, and none panics. After GetAncestors (GetDescendants) of every vertex the cache has every vertex. Two goroutines that begin with GetAncestors of vertices that are not in the cache can race, and so with GetDescendants.", "quantifier": "every client, every number of goroutines and walkers, every interleaving of single accesses to memory, every iteration order", "why_tests_cant": "Unbounded goroutines and interleavings.", "anchors": ["pkg/dag/dag.go:getAncestorsIDs", "pkg/dag/dag.go:getDescendantsIDs", "pkg/dag/dag.go:AncestorsWalker", "pkg/dag/dag.go:DescendantsWalker", "pkg/dag/dag.go"]}
{"id": "C84", "title": "Parallel queries get the answers of sequential ones", "statement": "Under the conditions of C83, what a goroutine has got from its calls when it ends it could also have got had it made them right after the calls of the client, with no other goroutine running.", "quantifier": "every client, every number of goroutines and walkers, every interleaving, every iteration order", "why_tests_cant": "Unbounded goroutines and interleavings.", "anchors": ["pkg/dag/dag.go"]}
{"id": "C85", "title": "A graph may be changed while a walker runs", "statement": "A client with only one goroutine that has started a walker may go on to change the graph without a data race.", "quantifier": "every graph, every walker, every call, every interleaving", "why_tests_cant": "The goroutine of the walker is started by the library; the race shows only in some interleavings.", "anchors": ["pkg/dag/dag.go:429-537", "pkg/dag/dag.go:DeleteEdge"]}
{"id": "C86", "title": "BuildTestExprTree wraps an operand", "statement": "BuildTestExprTree[E](v), with E a pointer to a struct of the AST, returns the one tree of that type that consists of v: at each level of expressions between them nothing is set but the first operand, and the position is that of v. If there is no such tree it panics. For an interface E the result is an Expr, a nil pointer is returned only if it is of the type E, and for another E the call panics. The text of the result is the text of v. If nothing but the first operand is set in an expression of a parsed file, the expression is what BuildTestExprTree makes of that operand.", "quantifier": "every value that points to a struct of the AST, every type E; every parsed file", "why_tests_cant": "All trees and all pairs of types; the table in the tests has values without contents and only *Expr.", "anchors": ["pkg/etx/utils.go:71-121", "pkg/etx/utils.go:BuildTestExprTree", "pkg/etx/expr.go", "pkg/etx/parser.go:Parse"]}
{"id": "C87", "title": "The text of a number without Source", "statement": "FormattedString of a ValueNumber without Source writes its Value: a finite Value as one number token, with a minus in front if it is negative, that denotes the number of ten decimal digits that is nearest to the Value, and of two such numbers the one whose last digit is even. So the text is off by at most half a part in 10^9, and exact if ten digits are enough. An infinite Value is written +Inf, which is read as a plus and a name.", "quantifier": "every ValueNumber without Source whose Value is a number of 53 bits, of any size", "why_tests_cant": "All numbers; the rounding, the choice between the two notations and the exponent together with the lexer.", "anchors": ["pkg/etx/value.go:202-208", "pkg/etx/value.go:FormattedString", "pkg/etx/lexer.go:80"]}
{"id": "C88", "title": "The Value of a number without Source survives formatting", "statement": "If a ValueNumber without Source is formatted and the text is read, the number has the same Value.", "quantifier": "every ValueNumber without Source with a finite Value", "why_tests_cant": "All numbers.", "anchors": ["pkg/etx/value.go:150-176", "pkg/etx/value.go:202-208"]}
{"id": "C89", "title": "When a final newline matters", "statement": "If a file ends with << and a word, perhaps with a dash in front of it, it is rejected with a newline at its end: the newline makes these characters the start of a heredoc. If an accepted file does not end like this, the newline is read as one more token, and the file with the newline is accepted, if the parser also accepts the file without it with a lookahead of 49 tokens instead of 50; this is so for every accepted file of up to 49 tokens.", "quantifier": "every input", "why_tests_cant": "All inputs: the patterns of all states of the lexer on all texts, and all alternatives of the grammar with their limits.", "anchors": ["pkg/etx/lexer.go:61-145", "pkg/etx/parser.go:Parse", "pkg/etx/ast.go:92-98"]}
{"id": "C90", "title": "The limit of iterations", "statement": "The parser panics if a repetition of the grammar matches 1000000 times. Aside from this the limit makes no difference; a file of fewer tokens or fewer bytes than the limit never meets it; a file of as many empty lines as the limit does, although it is accepted without the limit.", "quantifier": "every input and every limit", "why_tests_cant": "A million iterations, and all repetitions of the grammar on all inputs.", "anchors": ["pkg/etx/parser.go:11-19", "pkg/etx/ast.go:43", "pkg/etx/ast.go:92"]}
{"id": "C91", "title": "Parsing takes polynomial time", "statement": "The number of structs that the parser tries on a file is bounded by a polynomial in the length of the file.", "quantifier": "every input", "why_tests_cant": "A bound for all inputs; no test can tell a polynomial from an exponential function.", "anchors": ["pkg/etx/parser.go:11-19", "pkg/etx/expr.go:752-754", "pkg/etx/expr.go:800-804"]}
{"id": "C92", "title": "How long parsing takes", "statement": "The number of structs that the parser tries is at most exponential in the length of the file, and it can be exponential: on the rejected files val x=a.(a.(a.( and so on it doubles with every three characters, because ExprPrimary and ExprPostfix both try what follows the dot.", "quantifier": "every input; every number of repetitions", "why_tests_cant": "All inputs; a file of 105 characters would take longer than any test.", "anchors": ["pkg/etx/parser.go:11-19", "pkg/etx/expr.go:752-754", "pkg/etx/expr.go:800-804"]}
{"id": "C93", "title": "How long a call of the graph takes", "statement": "On a graph with V vertices and E edges a call starts at most 3(V+E)+4 loops over maps, counting those of the functions that it calls, and none of these maps has more than V entries; so the time of a call is polynomial in the size of the graph, however many paths there are.", "quantifier": "every graph that API calls can build, every call, every iteration order", "why_tests_cant": "All graphs and all states of the caches; the number of paths is exponential in the size of the graph, and a recursion without a working cache takes as long.", "anchors": ["pkg/dag/dag.go", "pkg/dag/dag.go:307-332", "pkg/dag/dag.go:372-398", "pkg/dag/dag.go:546-580"]}
{"id": "C94", "title": "Where a node is", "statement": "The Pos of a node of a parsed file, if it has one, is the place of a token of the file that is not white space: the text from its Offset on begins with that token, and Line and Column count the text before it. No two nodes with a Pos have the same type and the same Offset, and none starts before a node that it is part of.", "quantifier": "every input and all nodes of its AST", "why_tests_cant": "All inputs and all pairs of nodes; structs that match no token have to take the place of what follows.", "anchors": ["pkg/etx/ast.go:22-25", "pkg/etx/parser.go:Parse", "pkg/etx/*.go"]}
{"id": "C95", "title": "A graph keeps nothing of what was deleted", "statement": "The maps of inbound and outbound edges and both caches have entries for vertices of the graph only, and these entries hold vertices of the graph only; a graph whose last vertex has been deleted is exactly a new graph. So a graph to which vertices are added and from which they are deleted for ever does not grow.", "quantifier": "every graph that API calls can build", "why_tests_cant": "All histories; a leak of one entry per deletion changes no result and no test looks for it.", "anchors": ["pkg/dag/dag.go:64-107", "pkg/dag/dag.go:109-155", "pkg/dag/dag.go:307-398"]}
{"id": "C96", "title": "The ordered queries are topological orders", "statement": "GetOrderedDescendants lists every vertex after all its parents that are in the list, and GetOrderedAncestors lists every vertex after all its children that are in the list; so the lists can be used as orders of execution.", "quantifier": "every graph that API calls can build, every vertex, every iteration order", "why_tests_cant": "All graphs and all iteration orders.", "anchors": ["pkg/dag/dag.go:334-354", "pkg/dag/dag.go:400-420", "pkg/dag/dag.go:446-538"]}
{"id": "C97", "title": "When the ordered queries are topological orders", "statement": "The list of GetOrderedDescendants (GetOrderedAncestors) is sure to have every vertex after its parents (children) exactly if each edge between what is listed leads to a distance greater by one. If an edge leads to a smaller distance the list is wrong in every iteration order. Of the vertices at a distance each may be listed first.", "quantifier": "every graph that API calls can build, every vertex, every iteration order", "why_tests_cant": "All graphs and all iteration orders; that each order occurs cannot be forced in Go.", "anchors": ["pkg/dag/dag.go:334-354", "pkg/dag/dag.go:400-420", "pkg/dag/dag.go:446-538"]}
{"id": "C98", "title": "How many edges a graph can have", "statement": "A graph of n vertices has at most n(n-1)/2 edges, and for every n API calls can build a graph with n vertices and that many edges.", "quantifier": "every graph that API calls can build; every number of vertices", "why_tests_cant": "All graphs; the bound is what keeps GetSize and the loops over all edges finite in terms of the vertices.", "anchors": ["pkg/dag/dag.go:64-155", "pkg/dag/dag.go:157-230"]}
{"id": "C99", "title": "Every acyclic graph can be built, and nothing else about it matters", "statement": "For all vertices with ids that are not zero and all edges between them that have no cycle, the calls of AddVertex and then of AddEdge, in any order, all succeed and build that graph. Two graphs with the same vertices, values and edges answer all further calls in the same way, whatever calls built them.", "quantifier": "every finite acyclic graph, every order of its vertices and edges, all iteration orders, all further histories", "why_tests_cant": "All graphs and all orders; AddEdge answers from caches that depend on the calls before it.", "anchors": ["pkg/dag/dag.go:30-62", "pkg/dag/dag.go:109-155", "pkg/dag/dag.go"]}
{"id": "C100", "title": "Exactly which lists the ordered queries return", "statement": "A list is a possible result of GetOrderedDescendants(v) exactly if it has each descendant once and in the order of a queue: if y is listed before z, some parent of y is listed no later than any parent of z, v counting as the first. The same holds for GetOrderedAncestors with children for parents.", "quantifier": "every graph that API calls can build, every vertex, every list", "why_tests_cant": "All graphs, all lists and all iteration orders; that an order is possible cannot be tested, since Go chooses it.", "anchors": ["pkg/dag/dag.go:334-354", "pkg/dag/dag.go:400-420", "pkg/dag/dag.go:446-538"]}
{"id": "C101", "title": "Exactly what a walker can deliver", "statement": "The lists of ids that the client of a walker can have received at some moment are exactly the beginnings of the lists that the ordered query for the same vertex can return, that is of the orders of a queue. A client that never signals can receive each of them, and signals never lead to anything else. What a client that never signals has received when the walk has ended is one of the whole lists, and can be each of them.", "quantifier": "every graph that API calls can build, every vertex, both directions, every interleaving with the client, every iteration order", "why_tests_cant": "All graphs, all interleavings and all iteration orders; that a list can be delivered cannot be forced in Go.", "anchors": ["pkg/dag/dag.go:422-538"]}
{"id": "C102", "title": "The transitive reduction is a canonical form", "statement": "ReduceTransitively keeps exactly the edges that no longer path replaces; these lead from a vertex to each descendant with no vertex between them. Two graphs with the same vertices and values have the same ancestors and descendants exactly if no sequence of calls can tell their reductions apart.", "quantifier": "every two graphs that API calls can build, every iteration order, all further histories", "why_tests_cant": "All pairs of graphs and all further calls; the reduction goes through the edges in an order that Go chooses, and deletes while it does.", "anchors": ["pkg/dag/dag.go:546-580"]}
{"id": "C103", "title": "Which calls undo each other and which may be swapped", "statement": "After AddEdge has succeeded DeleteEdge of the same edge succeeds, after DeleteEdge AddEdge, and after AddVertex DeleteVertex; no later calls can tell the result from the graph before both. If two calls of AddEdge succeed one after the other they succeed in the other order too, and no later calls can tell the two results apart.", "quantifier": "every graph that API calls can build, all ids and values, every iteration order, all further histories", "why_tests_cant": "All graphs and all further calls; the calls leave different caches and empty sets behind.", "anchors": ["pkg/dag/dag.go:34-50", "pkg/dag/dag.go:64-107", "pkg/dag/dag.go:112-155", "pkg/dag/dag.go:179-210"]}
