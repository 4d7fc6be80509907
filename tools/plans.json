{
 "C96": "A table of documented names and kinds with one relation per kind between stored bytes and text, independent of the decoders; one lemma per decoder, then case distinction over the table; injectivity by reading the texts back.",
 "C97": "A relation between the bytes of the object record and the class definition, written member by member from the documentation; qualifiers and properties as lists of assignments with a dictionary characterised by order of first and value of last assignment; both directions by the reader lemmas.",
 "C98": "Declarations as an inductive relation over the properties of all classes; the dictionary by order of first and value of last assignment; the size by the first maximum of offsets; parent classes as an inductive lineage; loops by induction on fuel in one and on the lineage in the other direction; kept maps by an invariant.",
 "C99": "The instance block as four parts one after the other with a relation for each; values by an inductive relation per kind of data type; the reader lemmas of C97 at offsets; composed with the lookup of C98.",
 "C100": "WcrModel: the file header, node bin headers and node cells as readers, the loop of ReadFileObject with fuel. WcrSpec: after_cells says where the file goes on after n cells; found says what has to be reported. Proved: the loop keeps what is known after n cells; positions are determined; with all sizes positive the file length bounds the loop.",
 "C101": "WchModel: nodes as readers of the data of node cells (C100), trees, class definitions (C97), class maps (C98) and instances (C99), the recursive generators with fuel. WchSpec: family and spaces are inductive descriptions of the hierarchies in terms of stored bytes. Proved: soundness by induction on fuel, completeness by mutual induction on the derivations with monotonicity in fuel, errors and yields by induction on fuel.",
 "C102": "WchModel: classes and list_elements. WchSpec: elements_of, listed and class_tree. Proved as C101, with the loop over the list elements by induction on the links.",
 "C103": "WrpModel: class_defs and all_instances over key_record, object_record, class_record, map_by_hash and instance. WrpSpec: says, record_of, class_keys and instance_keys. Proved by induction over the keys, with the invariant that a kept class value map is the one that would be made.",
 "C104": "WrpModel: collect, one_pass, passes, object_namespaces and get_namespaces. WnsSpec: space_keys, named, found and resolution. Proved with a state relation for the keys, and for the passes with the invariant that every namespace at most j steps below a common one is known before pass j.",
 "C105": "NkaModel: the decoder function by function with a depth bound as fuel. NkaSpec: archives (what a value stands for), moved/layouts (a bisimulation of archives), mentions and needs, broken, json. Proved by mutual induction on archives; termination by well-founded induction on mentions.",
 "C106": "TvoModel: ReadFileObject, _ReadHeaderChunk and the timesync part of ReadLogEntries on top of AulModel and TvModel; the file system is given by functions. TvoSpec: abs_path, in_archive, in_database, first_there, header_bytes, begins. The reader is proved exact with the reader library; the places by cases on the last three directories.",
 "C107": "HpModel: heapq (heappush, heappop with _siftdown and _siftup) and the class LogEntriesHeap. Specification: Permutation and StronglySorted of the standard library. Proved with the invariant of a heap with a hole.",
 "C108": "UlModel: the lines that are printed, character by character, and the dictionary of parents. Specification: the grammar of JSON (RFC 8259, integers only) as an inductive relation between texts and values, and tables of the members of log entries up to their order. Proved with blocks of lines that end with a comma. The text of UUIDs, the ISO 8601 string of dfdatetime and str.isspace are parameters.",
 "C109": "AmcModel: what is printed as a list of events that ends with an exception or not. pyregf, str.lower and int(s, 16) are parameters. Specification: relations between the tree of keys and the events, in both directions. The numbers of file references are proved with the hexadecimal digits of multiples of 16.",
 "C110": "WdbModel: the readers of WmiModel, WcdModel, WciModel and WcrModel with the debug output that unpacks a string. Specification: the bytes of the pages that can be read (WdbSpec). Proof: the length of the text of a number and of an offset decides, then the readers are compared step by step.",
 "C111": "KcdModel: the readers of KcModel with their debug output, using the formatters of TextModel. Specification: the boundaries between the values of a record and the data shown for each (KcdSpec). Proof: the readers with and without debug output are compared step by step; for a record the list of boundaries that remains is an invariant of the loop over the columns.",
 "C112": "BsdModel: the reader of BsmModel with its debug output, the tables of event types, descriptions and attributes, and the formatters of TextModel. Specification: the tokens that cannot be shown, the output of tokens and records (BsdSpec). Proof: the readers with and without debug output are compared step by step; for the values, the text of a table of attributes is split at its line breaks and the formats are injective one by one.",
 "C113": "CphModel: the loop over the parts of the file, the reading of file entries in pieces of 4096 bytes, sorting and closing, with the reader of CpioModel and the data ranges of CoreModel. Specification: archives with a trailer, the line of a member, the signatures (CphSpec). Proof: reading in pieces yields the view of the data range (C02), which is the data of the member (C18); closing fails after every part.",
 "C114": "SpvModel: the table view, the rows of a metadata item and the information about the database, with the reader of SpotModel. Specification: what a terminal shows of tabs, the width of a column, aligned rows (SpvSpec). Proof: the widths are the least ones by induction over the rows; the tabs after a value are followed through the tab stops; lines are split at the runs of tabs.",
 "C115": "LdsModel: the lines of the entries, the choice of the reader by the last eight bytes and the name of the file, with the readers of LdbModel. Specification: entries that are shown alike, one line (LdsSpec). Proof: the representation of bytes can be split off from what follows it; numbers end at the first character that is no digit; all entries that are read hold bytes.",
 "C116": "KcsModel: the lines of tables, columns and records, with the reader of KcModel. Specification: lines of columns and records as relations, values that fit a type (KcsSpec). Proof: an invariant of all tables that are read on the names of the values of their records; texts without tabs and line breaks can be split at them.",
 "C117": "JlsModel: the functions of the output writer of the script, on shortcuts, items and property stores as data. Specification: supported types, texts below numbers, bits of flags (JlsSpec), a terminal with tab stops (SpvSpec). Proof: every function ends with RuntimeError or all its properties are supported; the lines of the flags have different texts; numbers contain no dash.",
 "C118": "WmsModel: PrintInstance, PrintNamespace and the loops of the output modes on generators. Specification: an order of strings, lines with the colon in a column, the pairs of names and values of an instance (WmsSpec). Proof: insertion by string order is a sorted permutation; the first line gives the column, and with it every line its name and value.",
 "C119": "AnzModel: _DetermineDebugInfo, _FormatSequence, _FormatDataTypeMap with its cache, and ReadFileObject; texts of attributes as in TextModel. Specification: the text of a value with nothing remembered, the parts of the output, numbered entries, structures of integers (AnzSpec). Proof: two runs that differ in what is remembered are alike as long as what is remembered is what the definitions give; lines of integers are cut at their newlines."
}
