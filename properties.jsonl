{"id": "C01", "title": "Split pieces respect the length limit", "statement": "When a text longer than a field limit L (L > 50) is split, every piece that comes out has at most L characters.", "quantifier": "every text (every list of sentences) and every limit L > 50", "why_tests_cant": "the piece lengths depend on how sentence lengths, space positions and the limit interact; the number of combinations is unbounded", "anchors": ["src/Lavoisier/data_structures/utils.py:text_to_list"]}
{"id": "C02", "title": "Splitting a long text loses no word", "statement": "When a text is split because it is too long, every visible character of the sentences appears, in order, in the pieces; only white space and the separator are added or removed.", "quantifier": "every list of sentences and every limit", "why_tests_cant": "whether a word survives depends on the exact lengths of the sentences relative to the limit; sampled texts miss the losing cases (the claim is false for over-long sentences)", "anchors": ["src/Lavoisier/data_structures/utils.py:text_to_list"]}
{"id": "C03", "title": "Enumeration fields only hold enumerated values", "statement": "An enumeration field accepts a value exactly when it is a string of its enumeration (for list enumerations: a string, list or tuple whose members all are), and after any sequence of accepted and rejected assignments it only holds members; a rejected assignment leaves the field unchanged.", "quantifier": "every enumeration, every value and every assignment history", "why_tests_cant": "histories of accepted/rejected assignments are unbounded", "anchors": ["src/Lavoisier/data_structures/validators/general_validators.py:return_enum", "src/Lavoisier/data_structures/validators/enumerations.py"]}
{"id": "C04", "title": "List enumerations keep first occurrences only", "statement": "After any sequence of accepted assignments a list enumeration holds every value ever accepted, once each, in order of first acceptance.", "quantifier": "every assignment history", "why_tests_cant": "duplicates may come inside one call or across calls in any order", "anchors": ["src/Lavoisier/data_structures/validators/general_validators.py:unique_list_add", "src/Lavoisier/data_structures/validators/general_validators.py:return_enum"]}
{"id": "C05", "title": "Integer fields accept exactly their documented range", "statement": "A coded integer field (inheritance depth, input group, pedigree score ...) accepts exactly the integers of its code list, and the ILCD digit-limited integers accept exactly 0..9 (Int1), 0..999999 (Int6) and 1000..9999 (Year).", "quantifier": "every integer", "why_tests_cant": "the domain is infinite (all integers), including negative ones and boundary digit counts", "anchors": ["src/Lavoisier/data_structures/validators/general_validators.py:return_collection", "src/Lavoisier/data_structures/validators/general_validators.py:return_limited_int", "src/Lavoisier/data_structures/validators/ILCD1_validators.py:Int1", "src/Lavoisier/data_structures/validators/ECS2_validators.py:InheritanceDepthINT"]}
{"id": "C06", "title": "Percentages stay between 0 and 100", "statement": "A percentage field accepts a number exactly when it lies between 0 and 100.", "quantifier": "every float, including infinities and NaN", "why_tests_cant": "every real number is a possible input; special floats are easily missed (NaN is accepted)", "anchors": ["src/Lavoisier/data_structures/validators/ECS2_validators.py:Percent"]}
{"id": "C07", "title": "Identifier fields hold well-formed UUIDs", "statement": "A UUID field accepts a string exactly when its first 36 characters form a lower-case 8-4-4-4-12 hexadecimal UUID.", "quantifier": "every string", "why_tests_cant": "the set of strings is infinite; the code checks a prefix only, so the stronger claim (the whole string is a UUID) is false", "anchors": ["src/Lavoisier/data_structures/validators/general_validators.py:return_pattern", "src/Lavoisier/data_structures/validators/general_validators.py:UUID"]}
{"id": "C08", "title": "Bounded text fields never emit over-long text", "statement": "When length restrictions are active, a bounded text field returns its text only if its length is inside the bounds and otherwise reports an error; the text is never truncated. When restrictions are ignored the full text is returned.", "quantifier": "every sequence of added texts, every bound and both settings of the option", "why_tests_cant": "lengths accumulate over arbitrarily many additions with separators", "anchors": ["src/Lavoisier/data_structures/validators/general_validators.py:return_limited_string", "src/Lavoisier/data_structures/validators/general_validators.py:separator_add", "src/Lavoisier/data_structures/validators/general_validators.py:ignore_limits"]}
{"id": "C09", "title": "Review date is the most recent one", "statement": "After any sequence of review dates the stored date is the maximum of them (ignoring time zones), whatever their order.", "quantifier": "every non-empty sequence of dates, in every order", "why_tests_cant": "all orders and repetitions of dates", "anchors": ["src/Lavoisier/data_structures/validators/ILCD1_validators.py:ReviewDateTime", "src/Lavoisier/data_structures/validators/general_validators.py:return_comparisson_add"]}
{"id": "C10", "title": "One text per language, in index order", "statement": "A multi-language field emits one entry per language that has non-blank text, ordered by language code; the text of a language is the concatenation (separated by newlines) of its texts in increasing index order, entries sharing index and language being merged first. Only a text over the length limit is emitted as several entries: the consecutive pieces the text splitter makes of it, at the place of that language.", "quantifier": "every sequence of additions of (index, language, text) triples", "why_tests_cant": "orders of additions, collisions of indexes and languages are unbounded", "anchors": ["src/Lavoisier/data_structures/validators/general_validators.py:MultiLangString", "src/Lavoisier/data_structures/validators/general_validators.py:BasicDictString._add"]}
{"id": "C11", "title": "Blank texts are never emitted", "statement": "No text field with language or index ever emits an entry whose text is empty or only white space.", "quantifier": "every sequence of additions", "why_tests_cant": "unbounded histories of additions", "anchors": ["src/Lavoisier/data_structures/validators/general_validators.py:BasicDictString._retrieve"]}
{"id": "C12", "title": "Indexed texts come out in numeric index order", "statement": "A text-and-image field emits its texts in increasing index order.", "quantifier": "every sequence of additions", "why_tests_cant": "order depends on digit counts of the indexes (claim false when digit counts differ)", "anchors": ["src/Lavoisier/data_structures/validators/general_validators.py:IndexedMultiLangString.end"]}
{"id": "C13", "title": "Reading a text field does not change it", "statement": "Reading the final value of a field any number of times always gives the same result and does not influence what later additions produce.", "quantifier": "every field state and every interleaving of reads and additions", "why_tests_cant": "interleavings of reads and additions are unbounded", "anchors": ["src/Lavoisier/data_structures/validators/general_validators.py:BasicDictString._end_validate", "src/Lavoisier/data_structures/validators/general_validators.py:MultiLangString.end", "src/Lavoisier/data_structures/validators/general_validators.py:IndexedString.end"]}
{"id": "C14", "title": "Named strings have distinct names", "statement": "A named-text field never emits two entries with the same name, whatever is added.", "quantifier": "every sequence of additions (single or list)", "why_tests_cant": "collisions can occur inside one list or across calls", "anchors": ["src/Lavoisier/data_structures/validators/ECS2_validators.py:NamedString"]}
{"id": "C15", "title": "Structures only accept schema fields", "statement": "Assigning a field that is not in the schema of a structure fails and leaves the structure unchanged; a structure never contains a field outside its schema.", "quantifier": "every schema and every sequence of assignments and reads", "why_tests_cant": "unbounded histories over a parametric schema", "anchors": ["src/Lavoisier/data_structures/main.py:DotDict.__setitem__"]}
{"id": "C16", "title": "Unique structure fields hold at most one value", "statement": "A field declared unique never holds more than one value, whatever sequence of assignments and attribute reads is performed.", "quantifier": "every schema and every history", "why_tests_cant": "unbounded histories, reads create values too", "anchors": ["src/Lavoisier/data_structures/main.py:DotDict.__setitem__", "src/Lavoisier/data_structures/main.py:DotDict.__getitem__"]}
{"id": "C17", "title": "Failed assignments are atomic", "statement": "If assigning a value (or list of values) to a field fails, the structure is unchanged.", "quantifier": "every structure, field and list of values", "why_tests_cant": "the failing position inside a list is arbitrary (claim false for lists: earlier members stay)", "anchors": ["src/Lavoisier/data_structures/main.py:DotDict.__setitem__"]}
{"id": "C18", "title": "Mandatory fields are enforced when the document is produced", "statement": "Producing the document of a structure succeeds only if every mandatory field, of it and of every nested structure, is present.", "quantifier": "every nested structure", "why_tests_cant": "nesting depth and field combinations are unbounded", "anchors": ["src/Lavoisier/data_structures/main.py:DotDict.get_dict"]}
{"id": "C19", "title": "Documents list fields in schema order and lose none", "statement": "The document produced from a structure contains exactly one entry per stored field, in non-decreasing schema order, with assignment order kept between fields of equal order.", "quantifier": "every structure", "why_tests_cant": "all insertion orders of all field subsets", "anchors": ["src/Lavoisier/data_structures/main.py:DotDict.get_dict"]}
{"id": "C20", "title": "Normalising to a list", "statement": "Normalising a parsed value to a list yields only dictionaries, never an empty one; when text is required every member has non-empty text, and normalising twice equals normalising once.", "quantifier": "every parsed value", "why_tests_cant": "parsed XML values are arbitrary nested data", "anchors": ["src/Lavoisier/conversions/utils.py:ensure_list"]}
{"id": "C21", "title": "Identifier obfuscation is reversible", "statement": "Converting an identifier from EcoSpold2 to ILCD and back yields the original identifier.", "quantifier": "every lower-case UUID, every key", "why_tests_cant": "2^128 identifiers", "anchors": ["src/Lavoisier/conversions/utils.py:uuid_from_uuid"]}
{"id": "C22", "title": "Identifier obfuscation never merges two identifiers", "statement": "Two different identifiers are never converted to the same identifier.", "quantifier": "every pair of lower-case UUIDs", "why_tests_cant": "2^256 pairs", "anchors": ["src/Lavoisier/conversions/utils.py:uuid_from_uuid"]}
{"id": "C23", "title": "Converted identifiers are well-formed UUIDs of the same version and variant", "statement": "The converted identifier is again a lower-case 8-4-4-4-12 UUID with the version digit and variant digit of the original.", "quantifier": "every lower-case UUID, every key", "why_tests_cant": "2^128 identifiers", "anchors": ["src/Lavoisier/conversions/utils.py:uuid_from_uuid"]}
{"id": "C24", "title": "The XML reader reports exactly the requested elements", "statement": "Streaming a document yields, for every element whose path is requested, exactly one report with its content, in the order in which elements close, each followed by its requested attributes; nothing else is reported.", "quantifier": "every XML tree and every set of requested paths", "why_tests_cant": "trees have unbounded depth and width", "anchors": ["src/Lavoisier/formats/utils.py:XMLStreamIterable.gen_return"]}
{"id": "C25", "title": "The XML reader keeps all attributes, texts and children", "statement": "The dictionary built from an element contains every attribute, the non-blank text and every child; children with the same tag appear as a list in document order.", "quantifier": "every XML element", "why_tests_cant": "trees have unbounded depth and width", "anchors": ["src/Lavoisier/formats/utils.py:XMLStreamIterable.elem2dict"]}
{"id": "C26", "title": "Writing never overwrites an existing output", "statement": "The name chosen for an output file is never the name of a file that already exists in the output folder, and choosing it always terminates.", "quantifier": "every base name and every finite folder content", "why_tests_cant": "folder contents are arbitrary, e.g. names already ending in (1), (2) ...", "anchors": ["src/Lavoisier/formats/abstractions.py:OutputTemplate.check_name_for_existence"]}
{"id": "C27", "title": "Output names contain no path separator", "statement": "The file name derived from a dataset never contains a slash.", "quantifier": "every dataset name, geography and date", "why_tests_cant": "arbitrary text", "anchors": ["src/Lavoisier/data_structures/ILCD1_structure.py:ILCD1Structure.get_filename", "src/Lavoisier/data_structures/ECS2_structure.py:ECS2Structure.get_filename"]}
{"id": "C28", "title": "Each input file is converted once and the last one is marked", "statement": "The list of inputs is delivered in order, each file once, and only the final one is marked as last.", "quantifier": "every list of input files", "why_tests_cant": "list length is unbounded", "anchors": ["src/Lavoisier/formats/abstractions.py:InputTemplate._yield_files"]}
{"id": "C29", "title": "Number of outputs per mode", "statement": "Converting n files in \"to_file\" mode reports n outputs; in database mode one output per input batch is reported and the documents of all files of the batch are written.", "quantifier": "every list of input files (batches) and every conversion outcome", "why_tests_cant": "unbounded numbers of files", "anchors": ["src/Lavoisier/converter.py:Converter.convert", "src/Lavoisier/formats/ILCD1_format.py:ILCD1Output", "src/Lavoisier/formats/ECS2_format.py:ECS2Output"]}
{"id": "C30", "title": "A converter can be used again after a failure", "statement": "After a failed conversion the same converter can convert a good file.", "quantifier": "every failing file followed by every good file", "why_tests_cant": "needs reasoning over state left by every failure point (claim false when the file version is unchanged)", "anchors": ["src/Lavoisier/converter.py:Converter.convert", "src/Lavoisier/converter.py:Converter.start_conversion"]}
{"id": "C31", "title": "Option guard", "statement": "An option of a converter only ever holds a boolean, whatever assignments are attempted; a rejected assignment leaves it unchanged.", "quantifier": "every sequence of attribute assignments", "why_tests_cant": "unbounded histories", "anchors": ["src/Lavoisier/converter.py:Converter.__setattr__"]}
{"id": "C32", "title": "Converter request validation", "statement": "A request is rejected for an unsupported format or flow list unless source and target format coincide, and accepted otherwise; the two formats are then the requested ones.", "quantifier": "every quadruple of format/flow-list names", "why_tests_cant": "infinitely many strings", "anchors": ["src/Lavoisier/converter.py:get_converter"]}
{"id": "C33", "title": "Code tables round trip", "statement": "Every EcoSpold2 code (activity kind, technology level, energy value, validity, access restriction, publication status, inheritance) translated to ILCD text and back gives the original code.", "quantifier": "every code of every table", "why_tests_cant": "several independent tables must agree entry by entry (claim false for some codes)", "anchors": ["src/Lavoisier/conversions/data.py"]}
{"id": "C34", "title": "Translated codes are legal in the target format", "statement": "Every value produced by a code table is accepted by the validator of the target field.", "quantifier": "every entry of every table", "why_tests_cant": "the tables and the validators live in different modules and must agree on every entry", "anchors": ["src/Lavoisier/conversions/data.py", "src/Lavoisier/data_structures/validators/enumerations.py", "src/Lavoisier/data_structures/validators/ECS2_validators.py"]}
{"id": "C35", "title": "Uncertainty bounds enclose the amount", "statement": "For a log-normal or normal uncertainty the minimum and maximum written to ILCD enclose the converted amount.", "quantifier": "every amount, variance and unit factor", "why_tests_cant": "real-valued domain", "anchors": ["src/Lavoisier/conversions/ECS2_to_ILCD1_conversion.py:UncertaintyConversion._calculate"]}
{"id": "C36", "title": "Variance survives the round trip", "statement": "A log-normal or normal variance written to ILCD and read back to EcoSpold2 is the original variance (times the square of the unit factors for normal).", "quantifier": "every variance and factor", "why_tests_cant": "real-valued domain", "anchors": ["src/Lavoisier/conversions/ECS2_to_ILCD1_conversion.py:UncertaintyConversion", "src/Lavoisier/conversions/ILCD1_to_ECS2_conversion.py:ILCD1ToECS2UncertaintyConversion"]}
{"id": "C37", "title": "Unit conversion preserves the physical quantity", "statement": "Converting an amount to the ILCD reference unit keeps the physical quantity, and the recorded factor is the ratio between new and old magnitude.", "quantifier": "every amount and every sequence of multiplications, divisions and unit changes", "why_tests_cant": "unbounded operation sequences over reals", "anchors": ["src/Lavoisier/conversions/ECS2_to_ILCD1_conversion.py:ECS2ToILCD1Amount"]}
{"id": "C38", "title": "Uncertainty is scaled like its amount", "statement": "For elementary flows the bounds of the uncertainty are scaled by the same factor as the amount.", "quantifier": "every amount, flow-mapping factor and distribution", "why_tests_cant": "real-valued domain (claim false when the mapping factor is not 1)", "anchors": ["src/Lavoisier/conversions/ECS2_to_ILCD1_conversion.py:ElementaryFlowConversion"]}
{"id": "C39", "title": "Variables are created once per name", "statement": "Whatever sequence of variables is converted, the ILCD document never contains two variables with the same name.", "quantifier": "every sequence of variable creations", "why_tests_cant": "unbounded histories, reset between files", "anchors": ["src/Lavoisier/conversions/ECS2_to_ILCD1_conversion.py:VariableConversion.create"]}
{"id": "C40", "title": "Exchange numbers are distinct", "statement": "All exchanges of a converted process have distinct internal numbers and the reference number designates an exchange that is an output reference product.", "quantifier": "every list of exchanges", "why_tests_cant": "lists of exchanges are unbounded", "anchors": ["src/Lavoisier/conversions/ECS2_to_ILCD1_conversion.py:FlowConversion.get_direction"]}
{"id": "C41", "title": "Flow versions identify property sets", "statement": "Within one conversion run two uses of the same product get the same flow version exactly when they have the same properties, and different property sets get different versions.", "quantifier": "every sequence of flow uses", "why_tests_cant": "unbounded histories of property sets", "anchors": ["src/Lavoisier/conversions/ECS2_to_ILCD1_conversion.py:IntermediateFlowConversion.get_flow_dict"]}
{"id": "C42", "title": "Merging equal elementary flows conserves totals", "statement": "With the merge option, for each elementary flow and direction the total amount is the same before and after merging and exactly one exchange remains.", "quantifier": "every list of elementary exchanges", "why_tests_cant": "unbounded lists", "anchors": ["src/Lavoisier/conversions/ECS2_to_ILCD1_conversion.py:ECS2ToILCD1FieldMapping.reset_conversion", "src/Lavoisier/conversions/ILCD1_to_ECS2_conversion.py:ILCD1ToECS2FieldMapping.reset_conversion"]}
{"id": "C43", "title": "EcoSpold2 exchange ids are distinct", "statement": "All exchanges written to an EcoSpold2 file have different ids, even when flows share their name.", "quantifier": "every list of exchanges", "why_tests_cant": "name collisions of every multiplicity", "anchors": ["src/Lavoisier/conversions/ILCD1_to_ECS2_conversion.py:ILCD1ToECS2FlowConversion.finish_flow_info"]}
{"id": "C44", "title": "Exchange groups are legal", "statement": "The input/output group written for an ILCD exchange is legal for the kind of EcoSpold2 exchange it becomes.", "quantifier": "every flow type, direction and reference status", "why_tests_cant": "combination of flow kind, direction and reference flag with two validators (claim false for elementary reference flows)", "anchors": ["src/Lavoisier/conversions/ILCD1_to_ECS2_conversion.py:ILCD1ToECS2FlowConversion.finish_flow_info", "src/Lavoisier/data_structures/validators/ECS2_validators.py:OutputGroupElementaryINT"]}
{"id": "C45", "title": "Energy basis vote", "statement": "The energy basis written is \"net\" when net values are at least three times as many as gross ones, otherwise \"gross\" when gross ones are at least three times the net ones, otherwise undefined; an explicit value in the source always wins.", "quantifier": "every multiset of heating-value properties", "why_tests_cant": "unbounded counts", "anchors": ["src/Lavoisier/conversions/ILCD1_to_ECS2_conversion.py:ILCD1ToECS2FieldMapping.reset_conversion"]}
{"id": "C46", "title": "Referenced file resolution", "statement": "A reference is resolved to the file named by its URI if present, else id_version.xml, else id.xml, else any file whose name contains the id, else nothing; the result always exists.", "quantifier": "every folder content and every reference", "why_tests_cant": "arbitrary folder contents", "anchors": ["src/Lavoisier/conversions/ILCD1_to_ECS2_conversion.py:ILCD1ToECS2ReferenceConversion.get_file"]}
{"id": "C47", "title": "ILCD to ILCD flow conversion scales amounts by the mapping factor", "statement": "When an elementary flow is mapped, the new amount is the old amount times the mapping factor (times the unit factor), and the amount is unchanged for unmapped flows.", "quantifier": "every amount, unit and mapping entry", "why_tests_cant": "real-valued domain and unit tables", "anchors": ["src/Lavoisier/conversions/ILCD1_to_ILCD1_conversion.py:ILCD1ToILCD1ElementaryFlowConversion.__init__"]}
{"id": "C48", "title": "ILCD to ILCD uncertainty scaling", "statement": "Scaling a distribution by the factor f scales its bounds by f.", "quantifier": "every distribution and factor", "why_tests_cant": "real-valued domain (claim false for the normal and undefined kinds)", "anchors": ["src/Lavoisier/conversions/ILCD1_to_ILCD1_conversion.py:ILCD1ToILCD1ElementaryFlowConversion.get_unc"]}
{"id": "C49", "title": "Dataset version conversion", "statement": "A dataset version written to ILCD is always accepted by the ILCD version field and read back to the same release numbers.", "quantifier": "every pair of release numbers", "why_tests_cant": "infinitely many release numbers (claim false for two-digit numbers)", "anchors": ["src/Lavoisier/conversions/ECS2_to_ILCD1_conversion.py:mapping", "src/Lavoisier/conversions/ILCD1_to_ECS2_conversion.py:mapping", "src/Lavoisier/data_structures/validators/ILCD1_validators.py:Version"]}
{"id": "C50", "title": "Conversions of successive files are independent", "statement": "The result for a file does not depend on the files converted before by the same converter.", "quantifier": "every pair of files", "why_tests_cant": "all pairs of files (claim false: the default language leaks)", "anchors": ["src/Lavoisier/converter.py", "src/Lavoisier/conversions/ECS2_to_ILCD1_conversion.py:ECS2ToILCD1BasicFieldMapping"]}
{"id": "C51", "title": "Splitting a long text invents nothing", "statement": "The letters of the pieces of a split text form a subsequence of the letters of the text: splitting never duplicates, reorders or invents letters.", "quantifier": "every text without '<' and every limit", "why_tests_cant": "depends on the interplay of twelve regular-expression rewrites and slice carry-overs for every text", "anchors": ["src/Lavoisier/data_structures/utils.py: split_into_sentences, text_to_list"]}
{"id": "C52", "title": "Splitting a long text succeeds", "statement": "Splitting a text that contains a letter always succeeds.", "quantifier": "every text without '<' and every limit", "why_tests_cant": "a single limit value (50) crashes; universal over texts", "anchors": ["src/Lavoisier/data_structures/utils.py: text_to_list"]}
{"id": "C53", "title": "Version, CAS and variable-name fields check their documented shape", "statement": "A version field accepts exactly strings starting with NN.NN, a CAS field exactly strings starting with 1-6 digits, dash, 2 digits, dash, digit, a variable-name field exactly strings starting with a word character.", "quantifier": "every string", "why_tests_cant": "universal over strings", "anchors": ["src/Lavoisier/data_structures/validators/general_validators.py: return_pattern", "src/Lavoisier/data_structures/validators/ILCD1_validators.py: Version", "src/Lavoisier/data_structures/validators/ECS2_validators.py: CASNumber, VariableName"]}
{"id": "C54", "title": "Coordinates lie on the globe", "statement": "A coordinate field accepts exactly the pairs latitude;longitude with latitude between -90 and 90 and longitude between -180 and 180.", "quantifier": "every string", "why_tests_cant": "universal over strings", "anchors": ["src/Lavoisier/data_structures/validators/ILCD1_validators.py: GIS"]}
{"id": "C55", "title": "Multi-valued integer fields keep every accepted value in order", "statement": "After any sequence of assignments a 6-digit integer list field holds exactly the accepted integers, in order, with repetitions.", "quantifier": "every assignment history", "why_tests_cant": "universal over histories, the storage changes representation from scalar to list", "anchors": ["src/Lavoisier/data_structures/validators/general_validators.py: list_add", "src/Lavoisier/data_structures/validators/ILCD1_validators.py: Int6List"]}
{"id": "C56", "title": "Boolean fields accept exactly the documented spellings", "statement": "A boolean field accepts exactly 1/0, true/false, their listed spellings and numbers equal to 0 or 1, and keeps the corresponding truth value.", "quantifier": "every value", "why_tests_cant": "universal over values of all types", "anchors": ["src/Lavoisier/data_structures/validators/general_validators.py: Bool"]}
{"id": "C57", "title": "Synonym fields keep every synonym of legal length", "statement": "A synonym field emits exactly the accepted non-blank synonyms of at most 80 characters, in index order, synonyms with equal index in the order they were added; longer ones are left out.", "quantifier": "every sequence of additions", "why_tests_cant": "unbounded histories and index collisions", "anchors": ["src/Lavoisier/data_structures/validators/ECS2_validators.py:String80_NLR"]}
{"id": "C58", "title": "Name fields emit exactly one entry", "statement": "Activity and exchange name fields emit the entry of lowest index (earliest added among equals), classification value fields the entry of highest index (latest added among equals); nothing is emitted exactly when no non-blank text was accepted. Of an over-long text the first (resp. last) piece is emitted.", "quantifier": "every sequence of additions", "why_tests_cant": "unbounded histories and index collisions", "anchors": ["src/Lavoisier/data_structures/validators/ECS2_validators.py:Name", "src/Lavoisier/data_structures/validators/ECS2_validators.py:ExchangeNameString80", "src/Lavoisier/data_structures/validators/ECS2_validators.py:ClassificationValueString120"]}
{"id": "C59", "title": "Language text entries are checked as a whole", "statement": "Adding to a language field succeeds exactly when every offered item is a dictionary with only the keys @index, @lang and #text, an integer index, a two-letter (and, for ILCD, listed) language and a string text; otherwise nothing of the call is stored.", "quantifier": "every history and every offered value", "why_tests_cant": "universal over values and histories", "anchors": ["src/Lavoisier/data_structures/validators/general_validators.py:MultiLangString._validate", "src/Lavoisier/data_structures/validators/ILCD1_validators.py:MultiLang"]}
{"id": "C60", "title": "Names of named texts respect their limit", "statement": "A named text is never emitted with a name of more than 40 characters.", "quantifier": "every history", "why_tests_cant": "universal over names", "anchors": ["src/Lavoisier/data_structures/validators/ECS2_validators.py:NamedString"]}
{"id": "C61", "title": "Nested structures have the class their field declares", "statement": "After a nested structure is assigned to a field, the structure held there is an instance of the class declared for that field in the schema.", "quantifier": "every field, every assigned value (dictionary, list, None or existing structure)", "why_tests_cant": "universal over nested values; the bad case needs an instance of an unrelated class", "anchors": ["src/Lavoisier/data_structures/main.py:DotDict.__setitem__"]}
{"id": "C62", "title": "Reading a field does not change the document", "statement": "Reading a field, at any path, leaves the dictionary produced by get_dict unchanged.", "quantifier": "every structure, path and field name", "why_tests_cant": "a read creates nested structures as a side effect; only visible through mandatory fields of untouched parts", "anchors": ["src/Lavoisier/data_structures/main.py:DotDict.__getitem__"]}
{"id": "C63", "title": "A field reports the values that were assigned to it", "statement": "Reading a plain field after assignments returns what its validator reports for exactly the sequence of values assigned to that field, in order.", "quantifier": "every sequence of assignments and reads", "why_tests_cant": "universal over assignment histories", "anchors": ["src/Lavoisier/data_structures/main.py:DotDict.__setitem__", "src/Lavoisier/data_structures/main.py:DotDict.get"]}
{"id": "C64", "title": "Assigning or reading one field leaves the others untouched", "statement": "Assigning to or reading a field of a structure, whether it succeeds or fails, leaves the content of every other field of that structure as it was.", "quantifier": "every structure, field pair and value", "why_tests_cant": "frame property over all fields and values", "anchors": ["src/Lavoisier/data_structures/main.py:DotDict.__setitem__"]}
{"id": "C65", "title": "Every value in a produced document satisfies its field's constraint", "statement": "Whenever get_dict produces a document, every plain value in it, at any depth, comes from a field of the schema and satisfies that field's constraint: collection membership, digit counts, pattern, text limit (unless limits are ignored), language, enumeration membership without repetition.", "quantifier": "every structure built by any sequence of operations on any of the 109 schema classes", "why_tests_cant": "universal over all programs and all schema rows", "anchors": ["src/Lavoisier/data_structures/main.py:DotDict.get_dict", "src/Lavoisier/data_structures/ECS2_structure.py", "src/Lavoisier/data_structures/ILCD1_structure.py"]}
{"id": "C66", "title": "Requiring text drops text-less members", "statement": "When a parsed value is normalised with text required, members without text are dropped, whether the value is a single dictionary or a list, and no text-less member is delivered.", "quantifier": "every parsed value", "why_tests_cant": "universal over all shapes of parsed values", "anchors": ["src/Lavoisier/conversions/utils.py:ensure_list"]}
{"id": "C67", "title": "Requested attributes are reported", "statement": "An attribute whose path is requested on its own is reported for every element at that path that carries it, whether or not the attribute has a namespace prefix.", "quantifier": "every document and every set of requested paths", "why_tests_cant": "universal over documents", "anchors": ["src/Lavoisier/formats/utils.py:XMLStreamIterable.gen_return"]}
{"id": "C68", "title": "All processes of an archive are converted", "statement": "When an ILCD archive is converted, every process data set file in it is delivered to the converter once, with the last one marked.", "quantifier": "every archive content", "why_tests_cant": "archives have arbitrary member names and folder layouts", "anchors": ["src/Lavoisier/formats/ILCD1_format.py:ILCD1Input._extract", "src/Lavoisier/formats/ILCD1_format.py:ILCD1Input._single_file_input"]}
{"id": "C69", "title": "An accepted request has a conversion", "statement": "When a request for a pair of formats is accepted, there is a conversion between them for every supported data set version.", "quantifier": "every pair of supported formats and every version", "why_tests_cant": "versions are arbitrary tuples of text", "anchors": ["src/Lavoisier/converter.py:get_converter", "src/Lavoisier/conversions/factories.py:MappingFactory"]}
{"id": "C70", "title": "File information is read from the document", "statement": "The version, the name and the per-exchange references read before a conversion are those written in the document, and every schema-valid document can be read.", "quantifier": "every document", "why_tests_cant": "universal over documents", "anchors": ["src/Lavoisier/converter.py:Converter._get_pre_instance_file_information", "src/Lavoisier/formats/configurations.py"]}
{"id": "C71", "title": "The original error is reported", "statement": "When a conversion fails, the exception that reaches the caller is the one that stopped the conversion.", "quantifier": "every conversion and every failure", "why_tests_cant": "universal over failures", "anchors": ["src/Lavoisier/converter.py:Converter.convert", "src/Lavoisier/formats/ILCD1_format.py:ILCD1Input.handle_error"]}
{"id": "C72", "title": "Outputs carry the hash of the request", "statement": "The hash given when a converter is requested is the one used in the names of all files it writes.", "quantifier": "every sequence of uses of several converters", "why_tests_cant": "universal over interleavings of converters", "anchors": ["src/Lavoisier/converter.py:Converter._set_format", "src/Lavoisier/formats/abstractions.py:OutputTemplate"]}
{"id": "C73", "title": "Free comment text is not altered", "statement": "A comment of an ILCD data set appears unchanged in the converted EcoSpold2 data set, and sets no other field.", "quantifier": "every comment text", "why_tests_cant": "universal over arbitrary texts", "anchors": ["src/Lavoisier/formats/helpers.py:ECS2Helper", "src/Lavoisier/conversions/ILCD1_to_ECS2_conversion.py:general_comment", "src/Lavoisier/conversions/ILCD1_to_ECS2_conversion.py:tech_comment"]}
{"id": "C74", "title": "Tags read back", "statement": "The tags of an EcoSpold2 data set, kept in the ILCD comment, are all found again when the data set is converted back.", "quantifier": "every list of tags", "why_tests_cant": "universal over lists of texts", "anchors": ["src/Lavoisier/conversions/ECS2_to_ILCD1_conversion.py:FieldMapping", "src/Lavoisier/formats/helpers.py:ECS2Helper._get_list_str"]}
{"id": "C75", "title": "Identifiers kept in comments", "statement": "Only complete UUIDs written after their mark are taken from a comment, and every identifier written there is read back.", "quantifier": "every comment and every identifier", "why_tests_cant": "universal over texts", "anchors": ["src/Lavoisier/formats/helpers.py:ECS2Helper._get_uuid", "src/Lavoisier/conversions/ILCD1_to_ECS2_conversion.py:general_comment"]}
{"id": "C76", "title": "Marked lines precede the free text", "statement": "In a comment made of indexed parts, the marked lines (of negative index) come first, one per line and in the order of their indexes, followed by all other parts.", "quantifier": "every list of indexed parts of a comment", "why_tests_cant": "universal over lists of parts", "anchors": ["src/Lavoisier/conversions/ECS2_to_ILCD1_conversion.py:FieldMapping", "src/Lavoisier/data_structures/validators/main.py"]}
{"id": "C77", "title": "Synonyms read back", "statement": "The synonyms of a flow written to ILCD as one text are the same list when read back.", "quantifier": "every list of synonyms", "why_tests_cant": "universal over lists of texts", "anchors": ["src/Lavoisier/conversions/ECS2_to_ILCD1_conversion.py", "src/Lavoisier/conversions/ILCD1_to_ECS2_conversion.py"]}
{"id": "C78", "title": "System model of the converted data set", "statement": "The EcoSpold2 system model is the one noted in the ILCD data set if there is one, otherwise the first of those given most often by the allocation approaches, and always has an identifier the format accepts.", "quantifier": "every list of approaches and every noted model", "why_tests_cant": "universal over lists and texts", "anchors": ["src/Lavoisier/conversions/ILCD1_to_ECS2_conversion.py:FieldMapping.reset_conversion", "src/Lavoisier/conversions/ILCD1_to_ECS2_conversion.py:deviation_comment"]}
{"id": "C79", "title": "Running text indexes", "statement": "The indexes given to the parts of a comment never decrease and are pairwise distinct.", "quantifier": "every sequence of calls of the helper", "why_tests_cant": "universal over call sequences", "anchors": ["src/Lavoisier/formats/helpers.py:ILCD1Helper.add", "src/Lavoisier/formats/helpers.py:ILCD1Helper.text_add_index"]}
{"id": "C80", "title": "Included activities read back", "statement": "The descriptions of the start and the end of the included activities, written into the ILCD technology comment, are read back exactly and removed from the comment.", "quantifier": "every pair of descriptions and surrounding lines", "why_tests_cant": "universal over texts", "anchors": ["src/Lavoisier/conversions/ECS2_to_ILCD1_conversion.py:FieldMapping", "src/Lavoisier/conversions/ILCD1_to_ECS2_conversion.py:tech_comment"]}
{"id": "C81", "title": "Every ILCD field the conversion handles is really found", "statement": "Every path for which the ILCD to EcoSpold2 mapping has a handler is a path that an ILCD (or openLCA ILCD) process data set can have, so the handler runs when the field is present; and every field of such a data set is requested, or lies inside or around something requested.", "quantifier": "all handlers, all fields of the format, all documents", "why_tests_cant": "needs every document; a misspelt path raises no error, it only never fires (claim false for four handlers, and the commissioner has none: publication status, technological applicability, coordinates, type of the reference and commissioner are silently lost)", "anchors": ["src/Lavoisier/conversions/ILCD1_to_ECS2_conversion.py:mapping", "src/Lavoisier/data_structures/ILCD1_structure.py:ILCD1Structure.get_dict", "src/Lavoisier/formats/utils.py:XMLStreamIterable.gen_return"]}
{"id": "C82", "title": "Uncertainty read from ILCD is scaled like its amount", "statement": "When an ILCD flow is mapped to EcoSpold2 with a conversion factor, the 95 % interval of its distribution is scaled by the same factor as the amount.", "quantifier": "every amount, positive factor and distribution", "why_tests_cant": "universal over reals and distributions", "anchors": ["src/Lavoisier/conversions/ILCD1_to_ECS2_conversion.py:ILCD1ToECS2UncertaintyConversion.calculate", "src/Lavoisier/conversions/ILCD1_to_ECS2_conversion.py:ILCD1ToECS2Amount.multiply"]}
{"id": "C83", "title": "Amounts survive the round trip", "statement": "An amount of an EcoSpold2 intermediate exchange, converted to ILCD and back, is the same physical quantity, whatever its unit was.", "quantifier": "every amount and every unit with an ILCD reference unit", "why_tests_cant": "universal over amounts and units", "anchors": ["src/Lavoisier/conversions/units.py:pint_to_ilcd_def", "src/Lavoisier/conversions/units.py:ilcd_to_ecs2_un", "src/Lavoisier/conversions/ECS2_to_ILCD1_conversion.py:ECS2ToILCD1Amount.to_ilcd_unit", "src/Lavoisier/conversions/ILCD1_to_ECS2_conversion.py:get_intermediate_flow_info"]}
{"id": "C84", "title": "Distributions unknown to ILCD survive in the comment", "statement": "A beta, gamma, binomial or undefined distribution of an EcoSpold2 exchange is written into the ILCD comment and comes back from it as the same distribution with the same parameter values; a comment without such a line gives no distribution, and a comment line written by hand never stops the conversion.", "quantifier": "every distribution, all parameter values, all other texts of the comment in all languages", "why_tests_cant": "arbitrary surrounding comment texts, indexes and languages (last part false: such a line with a part that is not name=value raises IndexError)", "anchors": ["src/Lavoisier/conversions/ECS2_to_ILCD1_conversion.py:ECS2ToILCD1UncertaintyConversion._get_not_converted_text", "src/Lavoisier/conversions/ILCD1_to_ECS2_conversion.py:ILCD1ToECS2UncertaintyConversion.init_from_comment", "src/Lavoisier/conversions/ILCD1_to_ECS2_conversion.py:ILCD1ToECS2UncertaintyConversion.calculate"]}
{"id": "C85", "title": "Pedigree and variance survive in the comment", "statement": "The scores of the pedigree matrix and the basic variance of an EcoSpold2 uncertainty are read back from the ILCD comment under the same names and with the same values.", "quantifier": "every pedigree matrix and variance, all other texts of the comment in all languages", "why_tests_cant": "every order of the attributes, every notation of the number and every surrounding text (claim false for other attribute orders, missing scores and exponents)", "anchors": ["src/Lavoisier/conversions/ECS2_to_ILCD1_conversion.py:ECS2ToILCD1UncertaintyConversion.__init__", "src/Lavoisier/conversions/ILCD1_to_ECS2_conversion.py:ILCD1ToECS2UncertaintyConversion.normal_init"]}
{"id": "C86", "title": "The comment of an uncertainty comes back as it was", "statement": "The comments of an EcoSpold2 uncertainty are read back from the ILCD comment with their text and language, and nothing else becomes a comment of the uncertainty.", "quantifier": "every list of comments, all other texts of the comment in all languages", "why_tests_cant": "arbitrary texts, languages and indexes merged into one field (claim false: the exchange's own comments are added, other languages are lost, a separator is left behind)", "anchors": ["src/Lavoisier/conversions/ECS2_to_ILCD1_conversion.py:ECS2ToILCD1UncertaintyConversion.get_uncertainty", "src/Lavoisier/conversions/ILCD1_to_ECS2_conversion.py:ILCD1ToECS2UncertaintyConversion.normal_init"]}
{"id": "C87", "title": "Allocation is carried over", "statement": "An EcoSpold2 exchange that is allocated by one of its properties, through the master allocation property or its own, has an allocated fraction in the ILCD process.", "quantifier": "every document and every choice of allocation property", "why_tests_cant": "no test document can show that a whole class of attributes is never read (claim false)", "anchors": ["src/Lavoisier/conversions/ECS2_to_ILCD1_conversion.py:ECS2ToILCD1FlowConversion.get_allocation", "src/Lavoisier/conversions/ECS2_to_ILCD1_conversion.py:ECS2ToILCD1FlowConversion.get_properties"]}
{"id": "C88", "title": "Totals of flow properties survive", "statement": "For every property converted with a flow, the property times the amount of the flow is the same in the source exchange and in the ILCD flow and exchange.", "quantifier": "every amount, unit, mapping factor and list of properties", "why_tests_cant": "every unit ratio and mapping factor (claim false for mapped elementary flows and for concentrations)", "anchors": ["src/Lavoisier/conversions/ECS2_to_ILCD1_conversion.py:Property.get_ilcd_equivalent", "src/Lavoisier/conversions/ECS2_to_ILCD1_conversion.py:ECS2ToILCD1FlowConversion.get_properties"]}
{"id": "C89", "title": "The functional unit is written for single-product processes", "statement": "The functional unit text of the ILCD process is written exactly when the source has one reference product.", "quantifier": "every list of exchanges", "why_tests_cant": "every number of reference products (claim false from three on)", "anchors": ["src/Lavoisier/conversions/ECS2_to_ILCD1_conversion.py:ECS2ToILCD1FlowConversion.get_direction"]}
{"id": "C90", "title": "Energy flows keep their energy basis", "statement": "The flow property of a flow measured in energy is the net or gross calorific value, as the energy values attribute of the activity says.", "quantifier": "every value of the attribute", "why_tests_cant": "the attribute is set on one name and read from another (claim false for gross)", "anchors": ["src/Lavoisier/conversions/ECS2_to_ILCD1_conversion.py:Property.get_unit_property", "src/Lavoisier/conversions/ECS2_to_ILCD1_conversion.py:ECS2ToILCD1FieldMapping.mapping"]}
{"id": "C91", "title": "Referenced data sets are in the output", "statement": "Every source, contact, flow and flow property that a converted process refers to is written to the output of the same run, once, at the address given in the reference.", "quantifier": "every sequence of runs in one session and every list of references", "why_tests_cant": "state kept between runs; runs that fail part way (claim false after a failure)", "anchors": ["src/Lavoisier/conversions/ECS2_to_ILCD1_conversion.py:ECS2ToILCD1ReferenceConversion.make_dataset", "src/Lavoisier/conversions/ECS2_to_ILCD1_conversion.py:ECS2ToILCD1BasicFieldMapping.end_conversion"]}
{"id": "C92", "title": "Formulas keep their meaning", "statement": "The corrections made to a formula (unit conversions, references to exchanges, percent signs, decimal commas) replace every such place by the factor, the number or the operator it stands for and leave the rest of the formula alone.", "quantifier": "every formula, any number of places, every unit and exchange table", "why_tests_cant": "unbounded texts with repeated and interleaved places (claim false for nested conversions, percent signs after a divisor, function arguments and references to anything but exchanges)", "anchors": ["src/Lavoisier/conversions/ECS2_to_ILCD1_conversion.py:ECS2ToILCD1VariableConversion.Formula"]}
{"id": "C93", "title": "Kind of flow follows group and by-product class", "statement": "Every legal exchange gets a kind of flow; it is elementary exactly for group 4 without by-product class, and a reference product is a waste flow exactly when its by-product class is Waste.", "quantifier": "every exchange and by-product class", "why_tests_cant": "all combinations of group, direction and class", "anchors": ["src/Lavoisier/conversions/ECS2_to_ILCD1_conversion.py:ECS2ToILCD1FlowConversion.get_direction"]}
{"id": "C94", "title": "The uncertainty of a merged exchange describes its amount", "statement": "When exchanges are merged, minimum, maximum and deviation of the merged exchange describe the merged amount, as they do for the exchanges merged.", "quantifier": "every list of exchanges, both directions", "why_tests_cant": "all combinations of kinds and amounts (claim false unless all are of one kind)", "anchors": ["src/Lavoisier/conversions/ECS2_to_ILCD1_conversion.py:ECS2ToILCD1BasicFieldMapping.end_conversion", "src/Lavoisier/conversions/ILCD1_to_ECS2_conversion.py:ILCD1ToECS2BasicFieldMapping.end_conversion"]}
{"id": "C95", "title": "Properties are converted by kind", "statement": "A property with an ILCD counterpart is converted with the dimension of that counterpart, a property without is left out, and no property is written twice under two names.", "quantifier": "every list of properties", "why_tests_cant": "names and units are free text (claim false for contents given in kg and for contents without a dry mass)", "anchors": ["src/Lavoisier/conversions/ECS2_to_ILCD1_conversion.py:Property.get_ilcd_equivalent"]}
{"id": "C96", "title": "The variable of an exchange exists and has its amount", "statement": "Every exchange that refers to a variable refers to one variable of the ILCD process, whose value is the amount of the exchange.", "quantifier": "every list of amounts with and without names and formulas", "why_tests_cant": "all combinations of names, formulas and unit changes (claim false when a name is used twice or looks like the converter's own names)", "anchors": ["src/Lavoisier/conversions/ECS2_to_ILCD1_conversion.py:ECS2ToILCD1Amount.construct_variable", "src/Lavoisier/conversions/ECS2_to_ILCD1_conversion.py:ECS2ToILCD1BasicFieldMapping.reset_conversion"]}
{"id": "C97", "title": "Formulas agree with values", "statement": "When the formula of an amount gives that amount, the formula of the variable written for it gives the value of the variable.", "quantifier": "every reading of formulas, every unit factor", "why_tests_cant": "every formula and every factor (claim false for elementary flows with a mapping factor)", "anchors": ["src/Lavoisier/conversions/ECS2_to_ILCD1_conversion.py:ECS2ToILCD1VariableConversion.converted_var", "src/Lavoisier/conversions/ECS2_to_ILCD1_conversion.py:ECS2ToILCD1Amount.construct_variable"]}
{"id": "C98", "title": "Sources read back", "statement": "First author, year and page of a source, written as an ILCD citation by this converter, are read back from that citation when the data set is converted to EcoSpold2 again.", "quantifier": "every author, year and page text", "why_tests_cant": "arbitrary texts that may contain the separators themselves (claim false for the page of published sources)", "anchors": ["src/Lavoisier/formats/helpers.py:ILCD1Helper.source_short_ref", "src/Lavoisier/conversions/ILCD1_to_ECS2_conversion.py:ILCD1ToECS2SourceReferenceConversion", "src/Lavoisier/conversions/ECS2_to_ILCD1_conversion.py:ECS2ToILCD1BasicFieldMapping"]}
{"id": "C99", "title": "Citations of other programs", "statement": "From a citation that contains a year, the year and the author before it are taken over as they stand.", "quantifier": "every author and every year of four digits", "why_tests_cant": "arbitrary texts around the year (claim false when the author is followed by one character only)", "anchors": ["src/Lavoisier/conversions/ILCD1_to_ECS2_conversion.py:ILCD1ToECS2SourceReferenceConversion"]}
{"id": "C100", "title": "Master data list each source and contact once", "statement": "The user master data written beside an EcoSpold2 file contain every source and contact that is used, each of them once.", "quantifier": "every sequence of references", "why_tests_cant": "any order and repetition of references (claim false for persons sharing the id of a company, and for flows)", "anchors": ["src/Lavoisier/conversions/ILCD1_to_ECS2_conversion.py:get_master_source", "src/Lavoisier/conversions/ILCD1_to_ECS2_conversion.py:get_master_contact"]}
{"id": "C101", "title": "Source attributes of an exchange describe one source", "statement": "Source id, first author, year and page written on an exchange come from one and the same source.", "quantifier": "every sequence of sources of an exchange", "why_tests_cant": "any number of sources with any attributes missing (claim false: attributes are set one by one)", "anchors": ["src/Lavoisier/conversions/ILCD1_to_ECS2_conversion.py:ILCD1ToECS2FlowConversion.set_field"]}
{"id": "C102", "title": "The direction of an exchange is kept", "statement": "An ILCD input becomes an EcoSpold2 exchange with an input group and an output one with an output group.", "quantifier": "every flow type, direction and reference status", "why_tests_cant": "combination of kinds, direction and reference flag (claim false for reference flows that are inputs)", "anchors": ["src/Lavoisier/conversions/ILCD1_to_ECS2_conversion.py:ILCD1ToECS2FlowConversion.finish_flow_info"]}
{"id": "C103", "title": "Variable names read from ILCD are legal", "statement": "Every variable name written to EcoSpold2 starts with a letter; names that already do are kept and the others get the prefix 'uc'.", "quantifier": "every list of ILCD variables and every list of exchanges", "why_tests_cant": "any names, any order of uses and factors", "anchors": ["src/Lavoisier/conversions/ILCD1_to_ECS2_conversion.py:ILCD1ToECS2VariableConversion"]}
{"id": "C104", "title": "No ILCD variable is lost", "statement": "Every variable of an ILCD process becomes the variable of an exchange or a parameter with its name and value.", "quantifier": "every list of variables, every list of exchanges with their references and factors", "why_tests_cant": "shared mutable tables over arbitrary sequences of uses and resets (claim false when a flow data set is missing, and for names ending in _original)", "anchors": ["src/Lavoisier/conversions/ILCD1_to_ECS2_conversion.py:ILCD1ToECS2VariableConversion.get_variable", "src/Lavoisier/conversions/ILCD1_to_ECS2_conversion.py:ILCD1ToECS2VariableConversion.create_parameters"]}
{"id": "C105", "title": "EcoSpold2 variable names are used once", "statement": "No two exchanges or parameters of an EcoSpold2 file carry the same variable name.", "quantifier": "every list of variables and exchanges", "why_tests_cant": "arbitrary sequences of uses (claim false for a variable used twice or with a factor, and for names that collide after renaming)", "anchors": ["src/Lavoisier/conversions/ILCD1_to_ECS2_conversion.py:ILCD1ToECS2VariableConversion.get_variable"]}
{"id": "C106", "title": "Formulas read from ILCD keep their meaning", "statement": "The formula written for an exchange or parameter is the formula of its ILCD variable, multiplied by the factor of the exchange, with variables under their new names.", "quantifier": "every list of variables with formulas, every list of exchanges", "why_tests_cant": "text replacement with overlapping names and repeated application (claim false for factors, for names contained in others and for repeated look-ups)", "anchors": ["src/Lavoisier/conversions/ILCD1_to_ECS2_conversion.py:ILCD1ToECS2VariableConversion.change_formula", "src/Lavoisier/conversions/ILCD1_to_ECS2_conversion.py:ILCD1ToECS2VariableConversion.get_variable"]}
{"id": "C107", "title": "Amounts entered in OpenLCA units", "statement": "When an exchange of an ILCD process has an amount in a unit chosen in OpenLCA, the amount written is the same quantity in the reference unit of the flow, under that unit.", "quantifier": "every amount, unit, unit group and list of flow properties", "why_tests_cant": "real-valued domain, arbitrary unit tables (claim false for units of other properties, and for other units of a mapped flow)", "anchors": ["src/Lavoisier/conversions/ILCD1_to_ILCD1_conversion.py:ILCD1ToILCD1ElementaryFlowConversion.__init__", "src/Lavoisier/conversions/ILCD1_to_ILCD1_conversion.py:ILCD1ToILCD1ElementaryFlowConversion.get_unit"]}
{"id": "C108", "title": "Variables of ILCD exchanges moved to other flows", "statement": "After the exchanges are moved, every reference to a variable finds a variable of the process, and the variable of a converted exchange has its formula multiplied by the conversion factor.", "quantifier": "every table of variables and every list of exchanges", "why_tests_cant": "renames in a shared table over arbitrary sequences of exchanges (claim false when a variable is used twice)", "anchors": ["src/Lavoisier/conversions/ILCD1_to_ILCD1_conversion.py:ILCD1ToILCD1ElementaryFlowConversion.get_var"]}
{"id": "C109", "title": "The output of an ILCD to ILCD conversion is complete", "statement": "The flow data set an exchange of the output refers to is in the output, with the flow property and unit group of a moved flow.", "quantifier": "every exchange, mapping and file system", "why_tests_cant": "arbitrary addresses and folders (claim false for flows in sub-folders)", "anchors": ["src/Lavoisier/conversions/ILCD1_to_ILCD1_conversion.py:ILCD1ToILCD1ElementaryFlowConversion.get_uri", "src/Lavoisier/conversions/ILCD1_to_ILCD1_conversion.py:ILCD1ToILCD1ElementaryFlowConversion.save_file"]}
{"id": "C110", "title": "Copied texts get an index and nothing else changes", "statement": "In a copied ILCD process every text with a language gets index 1 and everything else is unchanged.", "quantifier": "every nested dictionary", "why_tests_cant": "arbitrarily nested structures (the copy fails exactly when a list holds a plain text)", "anchors": ["src/Lavoisier/conversions/ILCD1_to_ILCD1_conversion.py:ILCD1ToILCD1FieldMapping.place_index"]}
{"id": "C111", "title": "Units are read from every ILCD file", "statement": "The reference unit of every flow property of a flow is read with its factor, however the files name their namespaces.", "quantifier": "every flow file, list of properties and unit group", "why_tests_cant": "all combinations of namespaces and numbers of units (claim false for default namespaces and single units)", "anchors": ["src/Lavoisier/conversions/ILCD1_to_ILCD1_conversion.py:ILCD1ToILCD1ElementaryFlowConversion.get_unit"]}
{"id": "C112", "title": "Reviews survive a round trip", "statement": "A review of an EcoSpold2 process converted to ILCD and read back has the same date, version and details, and its type says whether the reviewer is internal.", "quantifier": "every review, version, list of details texts in every language", "why_tests_cant": "arbitrary texts in arbitrary order (claim false for most versions)", "anchors": ["src/Lavoisier/conversions/ECS2_to_ILCD1_conversion.py:ECS2ToILCD1ReviewConversion.__init__", "src/Lavoisier/conversions/ECS2_to_ILCD1_conversion.py:ECS2ToILCD1ReviewConversion.get_version", "src/Lavoisier/conversions/ILCD1_to_ECS2_conversion.py:ILCD1ToECS2ReviewConversion.review_comment", "src/Lavoisier/conversions/ILCD1_to_ECS2_conversion.py:ILCD1ToECS2ReviewConversion.__init__"]}
{"id": "C113", "title": "Time periods keep their years", "statement": "The reference year and the year of validity written are those of the start and end date, and the period read back contains the original one.", "quantifier": "every day of the calendar, with or without a time of day", "why_tests_cant": "every day of ten thousand years and every time of day (claim false for zones, local times and early years)", "anchors": ["src/Lavoisier/conversions/ECS2_to_ILCD1_conversion.py:ECS2ToILCD1FieldMapping.get_time_object"]}
{"id": "C114", "title": "Variables in comments are replaced by their values", "statement": "In a comment of an EcoSpold2 process every name between double braces is replaced by the text of the variable of that name in the language of the comment, and nothing else is changed.", "quantifier": "every list of variables and every text", "why_tests_cant": "arbitrary texts and any number of variables in any order (claim false for values with braces and for several languages)", "anchors": ["src/Lavoisier/conversions/ECS2_to_ILCD1_conversion.py:ECS2ToILCD1FieldMapping.ECS2TTextAndImage.ILCDProcess"]}
{"id": "C115", "title": "Identifiers of images", "statement": "The source made for an image address has a well-formed identifier, equal for equal addresses and different for different ones.", "quantifier": "every pair of addresses", "why_tests_cant": "all pairs of texts (claim false for addresses with the same identifier in them and beyond Latin letters)", "anchors": ["src/Lavoisier/formats/helpers.py:ECS2Helper.get_text_uuid"]}
{"id": "C116", "title": "Geography of a converted activity", "statement": "A location of an ILCD process becomes the geography whose identifier the table of geographies gives, or a new geography made of its name; the activity and the activity index name the same geography, the geography is added to the master data exactly when it is new, and two locations of the table never become one.", "quantifier": "every process, every location, every table of geographies without empty identifiers", "why_tests_cant": "any location text, in any place among any other elements", "anchors": ["src/Lavoisier/conversions/ILCD1_to_ECS2_conversion.py:ILCD1ToECS2FieldMapping.new_geography_master", "src/Lavoisier/conversions/ILCD1_to_ECS2_conversion.py:mapping"]}
{"id": "C117", "title": "The activity index agrees with the activity", "statement": "Identifier, name identifier, geography, dates, special type and system model in the entry of the activity index and in the master name of a converted data set are the ones of the activity, whichever elements the ILCD process has and in whichever order; the conversion is refused exactly when a single element appears twice.", "quantifier": "every sequence of elements", "why_tests_cant": "arbitrary sequences of elements, with later ones replacing values of earlier ones", "anchors": ["src/Lavoisier/conversions/ILCD1_to_ECS2_conversion.py:mapping", "src/Lavoisier/conversions/ILCD1_to_ECS2_conversion.py:general_comment", "src/Lavoisier/conversions/ILCD1_to_ECS2_conversion.py:reset_conversion"]}
{"id": "C118", "title": "Complete ILCD processes are written", "statement": "Every ILCD process data set that has the elements the ILCD format requires is written as EcoSpold2.", "quantifier": "every process data set", "why_tests_cant": "all subsets of optional elements (claim false: ten elements are necessary, most of them optional in ILCD)", "anchors": ["src/Lavoisier/data_structures/main.py:DotDict.get_dict", "src/Lavoisier/conversions/ILCD1_to_ECS2_conversion.py:default", "src/Lavoisier/data_structures/ECS2_structure.py:VALID"]}
{"id": "C119", "title": "Every EcoSpold2 field the conversion handles is really found", "statement": "Every handler of the EcoSpold2 to ILCD mapping runs for some data set, the same parts are requested from activity and child activity data sets, and every field of the format is requested or lies inside or around something requested.", "quantifier": "all handlers, all fields of the format, all documents", "why_tests_cant": "needs every document (last part false: impact indicators and the user master data are never read)", "anchors": ["src/Lavoisier/conversions/ECS2_to_ILCD1_conversion.py:mapping", "src/Lavoisier/data_structures/ECS2_structure.py:ECS2Structure.get_dict", "src/Lavoisier/formats/utils.py:XMLStreamIterable.gen_return"]}
{"id": "C120", "title": "Replacing flows passes on the whole ILCD data set", "statement": "The ILCD to ILCD mapping requests parts that any data set can have, that do not overlap, and that together contain every field of the data set except the attributes of its root.", "quantifier": "all fields of the format, all documents", "why_tests_cant": "needs every field and every document", "anchors": ["src/Lavoisier/conversions/ILCD1_to_ILCD1_conversion.py:mapping", "src/Lavoisier/data_structures/ILCD1_structure.py:ILCD1Structure.get_dict"]}
{"id": "C121", "title": "What is looked up before a conversion can be found", "statement": "Each path looked up in a file before its conversion (name, schema version, default language, flow references) is one that a data set of the input format can have.", "quantifier": "all such paths, both formats, activity and child data sets", "why_tests_cant": "a wrong path gives no error, only a missing value", "anchors": ["src/Lavoisier/formats/configurations.py:ILCD1InputConfig", "src/Lavoisier/formats/configurations.py:ECS2InputConfig"]}
{"id": "C122", "title": "A text of a data set never stops its conversion", "statement": "A text element of an ILCD or EcoSpold2 data set is accepted by its handler whether it carries a language or not, so a data set is never refused because of the form of a text.", "quantifier": "all texts of both formats, all data sets, all positions", "why_tests_cant": "needs every field with and without a language; the sample data sets always carry xml:lang (claim false for eight ILCD fields, among them the registration number, which never has a language)", "anchors": ["src/Lavoisier/conversions/ILCD1_to_ECS2_conversion.py:mapping", "src/Lavoisier/formats/helpers.py:ILCD1Helper.text_add_index", "src/Lavoisier/formats/helpers.py:ILCD1Helper.return_text", "src/Lavoisier/formats/utils.py:XMLStreamIterable.gen_return"]}
{"id": "C123", "title": "An empty element is converted like an absent one", "statement": "An element without attributes, children and text says nothing, so a data set that contains one is converted.", "quantifier": "all empty elements of both formats, all data sets", "why_tests_cant": "needs an empty element in each position (claim false: most fields stop the conversion)", "anchors": ["src/Lavoisier/conversions/ILCD1_to_ECS2_conversion.py:mapping", "src/Lavoisier/conversions/ECS2_to_ILCD1_conversion.py:mapping", "src/Lavoisier/formats/utils.py:XMLStreamIterable.elem2dict"]}
{"id": "C124", "title": "A classification keeps its place in the target system", "statement": "A CPC or ISIC classification whose identifier is in the class mapping becomes the path of its ILCD class: the steps from the top, numbered from 0, whose texts joined with '/' give the class and whose identifiers are the beginnings of the dotted identifier. One outside the mapping keeps its value as the only step.", "quantifier": "all mappings and classifications", "why_tests_cant": "5391 entries and any user value", "anchors": ["src/Lavoisier/conversions/ECS2_to_ILCD1_conversion.py:ECS2ToILCD1ClassificationConversion.get_classification", "src/Lavoisier/Mappings/ecs2_to_ilcd1_classes.json"]}
{"id": "C125", "title": "Class identifiers tell classes apart", "statement": "Two steps of converted classifications with the same identifier are on the same level and have the same name, up to capitals; the steps of one path have different identifiers.", "quantifier": "all pairs of entries of the shipped mapping, all values outside it", "why_tests_cant": "concerns pairs of all entries (claim false: 21 classes have the identifier '#N/A' on every level, every unmapped class has '0')", "anchors": ["src/Lavoisier/conversions/ECS2_to_ILCD1_conversion.py:ECS2ToILCD1ClassificationConversion.get_classification", "src/Lavoisier/Mappings/ecs2_to_ilcd1_classes.json"]}
{"id": "C126", "title": "The preferred classification comes first", "statement": "All CPC and ISIC classifications are converted; in a process the one of ISIC comes first, in a product flow the one of CPC; each system occurs once; the by-product class is the last one given.", "quantifier": "all lists of classifications", "why_tests_cant": "needs any order (first part false: the order of the data set is kept, and all are called 'ILCD')", "anchors": ["src/Lavoisier/conversions/ECS2_to_ILCD1_conversion.py:ECS2ToILCD1ClassificationConversion.organize", "src/Lavoisier/conversions/ECS2_to_ILCD1_conversion.py:ECS2ToILCD1IntermediateFlowConversion.get_classification"]}
{"id": "C127", "title": "Every legal classification can be converted", "statement": "The conversion of an activity or exchange does not fail because of its classifications, with or without a classification context.", "quantifier": "all classifications", "why_tests_cant": "the optional context is absent from the samples (claim false for activities: a context raises AttributeError)", "anchors": ["src/Lavoisier/conversions/ECS2_to_ILCD1_conversion.py:ECS2ToILCD1ClassificationConversion.get_not_converted", "src/Lavoisier/data_structures/ILCD1_structure.py:ECS2ToILCD1DataNotConverted"]}
{"id": "C128", "title": "The comment of an exchange lists its tags", "statement": "The comment of a converted exchange contains its tags, separated by '; '.", "quantifier": "all exchange elements, any number of tags", "why_tests_cant": "needs zero, one and more tags of every length (claim false for a single tag: its letters are separated)", "anchors": ["src/Lavoisier/conversions/ECS2_to_ILCD1_conversion.py:ECS2ToILCD1FlowConversion.__init__", "src/Lavoisier/formats/utils.py:XMLStreamIterable.elem2dict"]}
{"id": "C129", "title": "Contacts are taken over however they are described", "statement": "A contact an ILCD process refers to (who generated it, who entered it, who has exclusive access) gives identifier and name in EcoSpold2, whether the reference has no description, one, one per language, or one without a language.", "quantifier": "all processes, references and descriptions", "why_tests_cant": "the form of the value depends on how many descriptions the file has", "anchors": ["src/Lavoisier/conversions/ILCD1_to_ECS2_conversion.py:ILCD1ToECS2ContactReferenceConversion.__init__", "src/Lavoisier/conversions/ILCD1_to_ECS2_conversion.py:ILCD1ToECS2ReferenceConversion.__init__"]}
{"id": "C130", "title": "Contact data sets are listed", "statement": "If the contact data set is found, the contact is listed with one of its names in the user master data, and no legal contact data set stops the conversion.", "quantifier": "all processes, contact data sets and references", "why_tests_cant": "names may be absent, repeated, with or without language", "anchors": ["src/Lavoisier/conversions/ILCD1_to_ECS2_conversion.py:ILCD1ToECS2ContactReferenceConversion.get_contact"]}
{"id": "C131", "title": "Documents a process refers to do not stop the conversion", "statement": "A process with references to external documents, pictures or a republication is converted, whatever the documents are called.", "quantifier": "all processes, references and descriptions", "why_tests_cant": "every description text, any number of languages", "anchors": ["src/Lavoisier/conversions/ILCD1_to_ECS2_conversion.py:ILCD1ToECS2SourceReferenceConversion.__init__"]}
{"id": "C132", "title": "Source data sets are read", "statement": "If the source data set of a republication is found, author, year and page are taken from its citation, or from its short name if it has no citation, and no legal source data set stops the conversion.", "quantifier": "all processes, source data sets and references", "why_tests_cant": "names and citations may be absent, repeated, with or without language", "anchors": ["src/Lavoisier/conversions/ILCD1_to_ECS2_conversion.py:ILCD1ToECS2SourceReferenceConversion.get_source"]}
{"id": "C133", "title": "Contexts and inheritance marks of exchanges do not stop the conversion", "statement": "Identifiers of contexts, marks of what a child data set overwrites, tags and transfer coefficients of EcoSpold2 exchanges, their properties and production volumes, and of parameters are set aside; the conversion goes on.", "quantifier": "all exchanges, properties, production volumes and parameters that fit the EcoSpold2 schema, and all data sets with them", "why_tests_cant": "about twenty optional attributes, in every combination", "anchors": ["src/Lavoisier/conversions/ECS2_to_ILCD1_conversion.py:ECS2ToILCD1FlowConversion.get_not_converted", "src/Lavoisier/conversions/ECS2_to_ILCD1_conversion.py:ECS2ToILCD1IntermediateFlowConversion.get_not_converted", "src/Lavoisier/conversions/ECS2_to_ILCD1_conversion.py:ECS2ToILCD1ParameterConversion.get_not_converted"]}
{"id": "C134", "title": "Administrative data of EcoSpold2 do not stop the conversion", "statement": "Contexts of persons, companies and sources, versions, file attributes, required contexts and reviews are set aside; the conversion goes on.", "quantifier": "all administrative data that fit the EcoSpold2 schema, and all data sets with them", "why_tests_cant": "optional attributes and repeated elements, in every combination", "anchors": ["src/Lavoisier/conversions/ECS2_to_ILCD1_conversion.py:ECS2ToILCD1FieldMapping"]}
{"id": "C135", "title": "What has no place in ILCD is kept", "statement": "The attributes of an EcoSpold2 activity without an ILCD counterpart are kept with their last value, transfer coefficients with their content, and a data set without the cases of C133 and C134 is converted as far as these data are concerned.", "quantifier": "all data sets, all orders of reports, all values", "why_tests_cant": "any number of reports before and after", "anchors": ["src/Lavoisier/conversions/ECS2_to_ILCD1_conversion.py:ECS2ToILCD1FieldMapping", "src/Lavoisier/data_structures/main.py:DotDict.__setitem__"]}
{"id": "C136", "title": "A data set keeps the shape of its schema", "statement": "Whatever is assigned and read, in whatever order and whether the assignments fail or succeed, every structure stored in a data set is of the class that the schema declares for its field, so that the data set has the shape of its schema.", "quantifier": "all schemas, all structures, all finite programs of assignments and reads", "why_tests_cant": "programs of any length over all schemas", "anchors": ["src/Lavoisier/data_structures/main.py:DotDict.__setitem__", "src/Lavoisier/data_structures/main.py:DotDict.__new__", "src/Lavoisier/data_structures/main.py:DotDict.__getitem__"]}
{"id": "C137", "title": "A single-valued field is assigned once, and its first value is judged for itself", "statement": "After a successful assignment of a single-valued field every further assignment of it is a ValueError that changes nothing, and its value stays what it was whatever else is done. Whether the first value is accepted depends on the value and the field only, not on what was done elsewhere before.", "quantifier": "all schemas, all structures, all fields reached through single-valued fields, all programs before and in between", "why_tests_cant": "any number of operations between the two assignments", "anchors": ["src/Lavoisier/data_structures/main.py:DotDict.__setitem__", "src/Lavoisier/data_structures/main.py:DotDict.__getitem__"]}
{"id": "C138", "title": "Texts in several languages of an EcoSpold2 data set are converted", "statement": "A data set whose place and system model are named in several languages is converted to ILCD.", "quantifier": "all EcoSpold2 documents, all states of the converter, ILCD and openLCA output", "why_tests_cant": "any other content, any number of languages", "anchors": ["src/Lavoisier/conversions/ECS2_to_ILCD1_conversion.py:ECS2ToILCD1FieldMapping", "src/Lavoisier/data_structures/main.py:DotDict.__setitem__", "src/Lavoisier/data_structures/ILCD1_structure.py:ILCD1Structure"]}
{"id": "C139", "title": "Two data sets of one file are never mixed", "statement": "A file with several data sets (activityDataset or childActivityDataset) is never converted into one ILCD process that mixes them.", "quantifier": "all EcoSpold2 documents with two or more data sets, all states of the converter, ILCD and openLCA output", "why_tests_cant": "any content and order of the data sets", "anchors": ["src/Lavoisier/conversions/ECS2_to_ILCD1_conversion.py:ECS2ToILCD1FieldMapping", "src/Lavoisier/data_structures/main.py:DotDict.__setitem__", "src/Lavoisier/converter.py:Converter.convert"]}
{"id": "C140", "title": "Allocations of an ILCD exchange are kept", "statement": "Every allocation of an exchange to a co-product is written to EcoSpold2 as a property named after the co-product with the allocated fraction, and an exchange without allocations gets none.", "quantifier": "all exchanges with any number of allocations, all flow data sets, all tables of reference flows", "why_tests_cant": "any number of allocations and any names", "anchors": ["src/Lavoisier/conversions/ILCD1_to_ECS2_conversion.py:ILCD1ToECS2FlowConversion.__init__"]}
{"id": "C141", "title": "Flow properties are read however they are described", "statement": "A product flow is converted whether its properties are described in one language, in several, without a language or not at all.", "quantifier": "all exchanges, all flow data sets and all their properties", "why_tests_cant": "one theorem for every property of every flow data set", "anchors": ["src/Lavoisier/conversions/ILCD1_to_ECS2_conversion.py:ILCD1ToECS2FlowConversion.get_properties", "src/Lavoisier/conversions/ILCD1_to_ECS2_conversion.py:ILCD1ToECS2FlowConversion.Property.normal_init"]}
{"id": "C142", "title": "Known properties of products are kept", "statement": "With the default option, each flow property of a product flow that EcoSpold2 knows, except the reference property, is written once with its amount, unit and comments, and unknown properties are left out.", "quantifier": "all product flows with any number of properties", "why_tests_cant": "any number of properties in any order", "anchors": ["src/Lavoisier/conversions/ILCD1_to_ECS2_conversion.py:ILCD1ToECS2FlowConversion.get_properties", "src/Lavoisier/conversions/ILCD1_to_ECS2_conversion.py:ILCD1ToECS2FlowConversion.Property.convert_properties"]}
{"id": "C143", "title": "Written properties have identifiers and units of EcoSpold2", "statement": "The properties written for an exchange carry the identifiers, names and units that EcoSpold2 has for them; an elementary flow gets the properties of the master data.", "quantifier": "all exchanges, all flow data sets, all master data and mappings, both values of the option", "why_tests_cant": "all master data and all flow data sets", "anchors": ["src/Lavoisier/conversions/ILCD1_to_ECS2_conversion.py:ILCD1ToECS2FlowConversion.Property.convert_properties", "src/Lavoisier/conversions/ILCD1_to_ECS2_conversion.py:ILCD1ToECS2FlowConversion.Property.master_data", "src/Lavoisier/conversions/units.py:ilcd_to_ecs2_fp"]}
{"id": "C144", "title": "Contents of wet flows become contents of the dry mass", "statement": "Without the master data option, the contents of a flow with a water content are divided by its dry mass, and its wet mass, dry mass and water are added as properties.", "quantifier": "all product flows with any number of properties, all amounts", "why_tests_cant": "all amounts and all sets of properties", "anchors": ["src/Lavoisier/conversions/ILCD1_to_ECS2_conversion.py:ILCD1ToECS2FlowConversion.Property.convert_properties"]}
{"id": "C145", "title": "Unit names and unit identifiers agree", "statement": "An exchange is written with the unit of its reference property (product flows) or of the mapping (elementary flows), together with the identifier of this unit; a unit has one identifier.", "quantifier": "all exchanges and flow data sets, all mappings, all notions of dimension", "why_tests_cant": "all mappings and units", "anchors": ["src/Lavoisier/conversions/ILCD1_to_ECS2_conversion.py:ILCD1ToECS2FlowConversion.get_elementary_flow_info", "src/Lavoisier/conversions/ILCD1_to_ECS2_conversion.py:ILCD1ToECS2FlowConversion.get_intermediate_flow_info", "src/Lavoisier/conversions/units.py:ilcd_to_ecs2_un"]}
{"id": "C146", "title": "Which exchanges are left out", "statement": "A readable exchange is left out exactly if no flow data set is found, its elementary flow has no mapping, or the reference property of its product flow has no unit in EcoSpold2; incomplete data do not stop the conversion.", "quantifier": "all exchanges, all flow data sets, all mappings and compartments", "why_tests_cant": "an equivalence over all inputs", "anchors": ["src/Lavoisier/conversions/ILCD1_to_ECS2_conversion.py:ILCD1ToECS2FlowReferenceConversion.get_flow", "src/Lavoisier/conversions/ILCD1_to_ECS2_conversion.py:ILCD1ToECS2FieldMapping"]}
{"id": "C147", "title": "A merged exchange keeps its data once and consistent", "statement": "If exchanges of one flow are merged, the amount is the sum, the comments and properties appear once, and no formula contradicts the amount.", "quantifier": "all comments, amounts, variables, properties, and any number of merged exchanges", "why_tests_cant": "any number of merged exchanges", "anchors": ["src/Lavoisier/conversions/ILCD1_to_ECS2_conversion.py:ILCD1ToECS2FlowConversion.finish_flow_info", "src/Lavoisier/conversions/ILCD1_to_ECS2_conversion.py:ILCD1ToECS2FieldMapping"]}
{"id": "C148", "title": "Names, numbers and factors of flows are carried over", "statement": "A readable exchange of a complete product flow is written with the converted identifier, all names with their languages, CAS number and unit; one of a mapped elementary flow with the identifier, name and conversion factor of the mapping and the CAS number and formula of the data set.", "quantifier": "all exchanges, all flow data sets with any number of names, all mappings", "why_tests_cant": "all documents and mappings", "anchors": ["src/Lavoisier/conversions/ILCD1_to_ECS2_conversion.py:ILCD1ToECS2FlowReferenceConversion.get_flow", "src/Lavoisier/conversions/ILCD1_to_ECS2_conversion.py:ILCD1ToECS2FlowConversion.get_intermediate_flow_info", "src/Lavoisier/conversions/ILCD1_to_ECS2_conversion.py:ILCD1ToECS2FlowConversion.get_elementary_flow_info"]}
{"id": "C149", "title": "A product survives conversion to ILCD and back", "statement": "A product of EcoSpold2 that is converted to ILCD and back again is a product with the same identifier and names, in a unit of the same dimension.", "quantifier": "all product exchanges with any names, all properties, all keys of the cipher, all readers of numbers and units", "why_tests_cant": "composes two converters over all documents", "anchors": ["src/Lavoisier/conversions/ECS2_to_ILCD1_conversion.py:ECS2ToILCD1IntermediateFlowConversion.get_flow_dict", "src/Lavoisier/conversions/ECS2_to_ILCD1_conversion.py:ECS2ToILCD1ReferenceConversion.IntermediateFlowDataSet.make_structure", "src/Lavoisier/conversions/ILCD1_to_ECS2_conversion.py:ILCD1ToECS2FlowConversion.get_intermediate_flow_info"]}
{"id": "C150", "title": "The CAS number of a product is kept", "statement": "The CAS number of a product is written to its ILCD flow data set and is read back.", "quantifier": "all product exchanges with a CAS number", "why_tests_cant": "all exchanges", "anchors": ["src/Lavoisier/conversions/ECS2_to_ILCD1_conversion.py:ECS2ToILCD1IntermediateFlowConversion.get_flow_dict"]}
{"id": "C151", "title": "Synonyms of a product are kept", "statement": "The synonyms of a product are written to its ILCD flow data set with their languages, whatever synonyms there are.", "quantifier": "all product exchanges with any number of synonyms", "why_tests_cant": "any number of synonyms and any texts", "anchors": ["src/Lavoisier/conversions/ECS2_to_ILCD1_conversion.py:ECS2ToILCD1IntermediateFlowConversion.get_flow_dict", "src/Lavoisier/conversions/ECS2_to_ILCD1_conversion.py:ECS2ToILCD1ReferenceConversion.IntermediateFlowDataSet.make_structure"]}
{"id": "C152", "title": "Properties of a product survive conversion to ILCD and back", "statement": "A property of a product comes back from ILCD as the same property of EcoSpold2 with its amount and comments.", "quantifier": "all product exchanges, any number of properties, both values of the master data option", "why_tests_cant": "any number of properties; composes two converters", "anchors": ["src/Lavoisier/conversions/ECS2_to_ILCD1_conversion.py:ECS2ToILCD1FlowConversion.Property.get_dict", "src/Lavoisier/conversions/units.py:pint_to_ilcd_fp", "src/Lavoisier/conversions/units.py:ilcd_to_ecs2_fp"]}
{"id": "C153", "title": "Comments of an exchange and its linked activity are written", "statement": "The comment of an ILCD exchange has the comments of the EcoSpold2 exchange, those on the production volume if a volume is given, and the identifier of the linked activity if there is one.", "quantifier": "all exchanges with any number of comments in any languages", "why_tests_cant": "any number of comments", "anchors": ["src/Lavoisier/conversions/ECS2_to_ILCD1_conversion.py:ECS2ToILCD1FlowConversion.__init__", "src/Lavoisier/conversions/ECS2_to_ILCD1_conversion.py:ECS2ToILCD1IntermediateFlowConversion.__init__"]}
{"id": "C154", "title": "References to flows have legal versions that agree with the file", "statement": "A reference to an elementary flow has the version of the flow data set, whatever legal version that is, and the versions of product flows are legal.", "quantifier": "all legal versions, all numbers of versions", "why_tests_cant": "all version texts and all numbers", "anchors": ["src/Lavoisier/conversions/ECS2_to_ILCD1_conversion.py:ECS2ToILCD1ReferenceConversion.ElementaryFlowDataSet.produce_new_version"]}
{"id": "C155", "title": "A flow data set is complete, ordered and named after its content", "statement": "The ILCD flow data set of a product is one XML document whose parts are in the order of the format, and whose UUID and version are the ones in the name of the file.", "quantifier": "all product exchanges, properties, classifications and versions", "why_tests_cant": "all contents", "anchors": ["src/Lavoisier/conversions/ECS2_to_ILCD1_conversion.py:ECS2ToILCD1ReferenceConversion.AdditionalDataset.make_structure", "src/Lavoisier/conversions/ECS2_to_ILCD1_conversion.py:ECS2ToILCD1ReferenceConversion.IntermediateFlowDataSet.make_structure"]}
{"id": "C156", "title": "Properties of a written flow are numbered consistently", "statement": "The properties of a written flow data set have different numbers, exactly one of them is the reference property, and this is the property for the unit of the product.", "quantifier": "all product exchanges, any number of properties of which any are kept", "why_tests_cant": "any number of properties", "anchors": ["src/Lavoisier/conversions/ECS2_to_ILCD1_conversion.py:ECS2ToILCD1FlowConversion.get_properties", "src/Lavoisier/conversions/ECS2_to_ILCD1_conversion.py:ECS2ToILCD1ReferenceConversion.IntermediateFlowDataSet.make_structure"]}
{"id": "C157", "title": "Persons and companies survive conversion to ILCD and back", "statement": "A person or company named in an EcoSpold2 data set comes back from ILCD with the same identifier, the same name, and the email address if there was one.", "quantifier": "all elements that name a person or company, all other references of the data set, all keys of the cipher", "why_tests_cant": "composes two converters over all documents and all orders of references", "anchors": ["src/Lavoisier/conversions/ECS2_to_ILCD1_conversion.py:ECS2ToILCD1ReferenceConversion.make_dataset", "src/Lavoisier/conversions/ECS2_to_ILCD1_conversion.py:ECS2ToILCD1ReferenceConversion.ContactDataSet", "src/Lavoisier/conversions/ILCD1_to_ECS2_conversion.py:ILCD1ToECS2ContactReferenceConversion.get_contact"]}
{"id": "C158", "title": "Each contact and source is written once", "statement": "For any references of a data set to contacts and sources there is exactly one file for each contact and each source, and every reference has its file; what each reference says of its contact or source is in the file.", "quantifier": "all lists of references", "why_tests_cant": "any number of references in any order", "anchors": ["src/Lavoisier/conversions/ECS2_to_ILCD1_conversion.py:ECS2ToILCD1ReferenceConversion.make_dataset"]}
{"id": "C159", "title": "Sources survive conversion to ILCD and back", "statement": "The source of an exchange, and the publication of a data set, come back from ILCD with the same identifier, author, year and pages.", "quantifier": "all exchanges with a source, all other references of the data set", "why_tests_cant": "all texts; composes two converters and a regular expression", "anchors": ["src/Lavoisier/conversions/ECS2_to_ILCD1_conversion.py:ECS2ToILCD1ReferenceConversion.SourceDataSet", "src/Lavoisier/conversions/ECS2_to_ILCD1_conversion.py:ECS2ToILCD1QuantitativeObject.get_source", "src/Lavoisier/conversions/ILCD1_to_ECS2_conversion.py:ILCD1ToECS2SourceReferenceConversion.get_source"]}
{"id": "C160", "title": "Images and icons survive conversion to ILCD and back", "statement": "The address of each image and of the icon of an EcoSpold2 data set comes back from ILCD.", "quantifier": "all addresses, all other references of the data set", "why_tests_cant": "all addresses and orders", "anchors": ["src/Lavoisier/conversions/ECS2_to_ILCD1_conversion.py:ECS2ToILCD1ReferenceConversion.SourceDataSet", "src/Lavoisier/conversions/ILCD1_to_ECS2_conversion.py:ILCD1ToECS2SourceReferenceConversion.get_source"]}
{"id": "C161", "title": "The file of a written reference is found", "statement": "For each reference to a contact or source that the conversion to ILCD writes, the conversion from ILCD finds the file, and it is the one written for this identifier.", "quantifier": "all references with identifiers that are UUIDs, all files of the folder", "why_tests_cant": "all sets of files", "anchors": ["src/Lavoisier/conversions/ECS2_to_ILCD1_conversion.py:ECS2ToILCD1ReferenceConversion", "src/Lavoisier/conversions/ILCD1_to_ECS2_conversion.py:ILCD1ToECS2ReferenceConversion.get_file"]}
{"id": "C162", "title": "Active authors are marked", "statement": "Whether the person who entered the data is an active author is written to the contact and comes back.", "quantifier": "all persons", "why_tests_cant": "composes two converters", "anchors": ["src/Lavoisier/conversions/ECS2_to_ILCD1_conversion.py:ECS2ToILCD1ReferenceConversion.ContactDataSet", "src/Lavoisier/conversions/ILCD1_to_ECS2_conversion.py:ILCD1ToECS2ContactReferenceConversion.get_contact"]}
{"id": "C163", "title": "Written contacts and sources hold their identifier and version", "statement": "Each contact and source data set that is written holds the identifier that is the name of its file and the version that references name.", "quantifier": "all references of a data set", "why_tests_cant": "all lists of references", "anchors": ["src/Lavoisier/conversions/ECS2_to_ILCD1_conversion.py:ECS2ToILCD1ReferenceConversion.AdditionalDataset", "src/Lavoisier/conversions/ECS2_to_ILCD1_conversion.py:ECS2ToILCD1ReferenceConversion"]}
{"id": "C164", "title": "Groups of exchanges survive conversion to ILCD and back", "statement": "An exchange that goes to ILCD and comes back has the direction and the input or output group that it had.", "quantifier": "all processes, all exchanges with a group that EcoSpold2 has, all by-product classes, all flow data sets", "why_tests_cant": "composes two converters over all lists of exchanges", "anchors": ["src/Lavoisier/conversions/ECS2_to_ILCD1_conversion.py:ECS2ToILCD1FlowConversion.get_direction", "src/Lavoisier/conversions/ECS2_to_ILCD1_conversion.py:ECS2ToILCD1IntermediateFlowConversion.get_flow_dict", "src/Lavoisier/conversions/ILCD1_to_ECS2_conversion.py:ILCD1ToECS2FlowConversion.finish_flow_info"]}
{"id": "C165", "title": "Elementary exchanges survive conversion to ILCD and back", "statement": "An elementary exchange that goes to ILCD and comes back has the same flow identifier and the same amount, if the two mappings are inverse to each other.", "quantifier": "all mappings, all exchanges, all amounts", "why_tests_cant": "all mappings; composes two converters", "anchors": ["src/Lavoisier/conversions/ECS2_to_ILCD1_conversion.py:ECS2ToILCD1ElementaryFlowConversion.get_elementary_info", "src/Lavoisier/conversions/ILCD1_to_ECS2_conversion.py:ILCD1ToECS2FlowConversion.finish_flow_info"]}
{"id": "C166", "title": "Elementary flows without a counterpart are left out", "statement": "An elementary exchange is left out of the ILCD data set exactly if the mapping has no counterpart for its flow, with the types of rows that the conversion from ILCD knows.", "quantifier": "all mappings, all exchanges", "why_tests_cant": "all rows of all mappings", "anchors": ["src/Lavoisier/conversions/ECS2_to_ILCD1_conversion.py:ECS2ToILCD1ElementaryFlowConversion.get_elementary_info"]}
{"id": "C167", "title": "The flow data set of a written exchange is found", "statement": "For each exchange that the conversion to ILCD writes, the conversion from ILCD finds the file of its flow data set, whatever other flow data sets are there.", "quantifier": "all lists of exchanges, all folders that the conversion fills", "why_tests_cant": "all sets of files", "anchors": ["src/Lavoisier/conversions/ECS2_to_ILCD1_conversion.py:ECS2ToILCD1ReferenceConversion.complete_info", "src/Lavoisier/conversions/ILCD1_to_ECS2_conversion.py:ILCD1ToECS2ReferenceConversion.get_file", "src/Lavoisier/conversions/ILCD1_to_ECS2_conversion.py:ILCD1ToECS2FlowReferenceConversion.get_flow"]}
{"id": "C168", "title": "Exchanges of products survive conversion to ILCD and back", "statement": "A process that goes to ILCD and comes back has its exchanges in the same order, and those of products with the same product, name, amount and comments.", "quantifier": "all processes, all lists of exchanges", "why_tests_cant": "any number of exchanges; composes two converters", "anchors": ["src/Lavoisier/conversions/ECS2_to_ILCD1_conversion.py:ECS2ToILCD1IntermediateFlowConversion.get_flow_dict", "src/Lavoisier/conversions/ECS2_to_ILCD1_conversion.py:ECS2ToILCD1FlowConversion", "src/Lavoisier/conversions/ILCD1_to_ECS2_conversion.py:ILCD1ToECS2FlowConversion.finish_flow_info"]}
{"id": "C169", "title": "The general comment of an activity survives conversion to ILCD and back", "statement": "An activity that goes to ILCD and comes back has the general comment that it had, in each language, and the special activity type, the parent activity, the link to the index and the inheritance depth that it had.", "quantifier": "all activities, all comments in any languages", "why_tests_cant": "composes two converters over all texts, languages and numbers", "anchors": ["src/Lavoisier/conversions/ECS2_to_ILCD1_conversion.py:ECS2ToILCD1FieldMapping.ECS2TTextAndImage", "src/Lavoisier/conversions/ECS2_to_ILCD1_conversion.py:ECS2ToILCD1FieldMapping.mapping", "src/Lavoisier/conversions/ILCD1_to_ECS2_conversion.py:ILCD1ToECS2FieldMapping.general_comment"]}
{"id": "C170", "title": "Names of an activity survive conversion to ILCD and back", "statement": "An activity that goes to ILCD and comes back has its name in each language that it had one in.", "quantifier": "all activities, all names", "why_tests_cant": "composes two converters over all texts, languages and numbers", "anchors": ["src/Lavoisier/conversions/ECS2_to_ILCD1_conversion.py:ECS2ToILCD1FieldMapping.mapping", "src/Lavoisier/conversions/ILCD1_to_ECS2_conversion.py:ILCD1ToECS2FieldMapping.mapping"]}
{"id": "C171", "title": "Synonyms of an activity survive conversion to ILCD and back", "statement": "An activity that goes to ILCD and comes back has the same synonyms in the same order, each in its language.", "quantifier": "all activities, all lists of synonyms", "why_tests_cant": "composes two converters over all texts, languages and numbers", "anchors": ["src/Lavoisier/conversions/ECS2_to_ILCD1_conversion.py:ECS2ToILCD1FieldMapping.mapping", "src/Lavoisier/conversions/ILCD1_to_ECS2_conversion.py:ILCD1ToECS2FieldMapping.mapping"]}
{"id": "C172", "title": "Technology comment and included activities survive conversion to ILCD and back", "statement": "An activity that goes to ILCD and comes back has the technology comment, the technology level and the texts on where the activity starts and ends that it had.", "quantifier": "all activities, all comments, all numbers of texts", "why_tests_cant": "composes two converters over all texts, languages and numbers", "anchors": ["src/Lavoisier/conversions/ECS2_to_ILCD1_conversion.py:ECS2ToILCD1FieldMapping.ECS2TTextAndImage", "src/Lavoisier/conversions/ECS2_to_ILCD1_conversion.py:ECS2ToILCD1FieldMapping.mapping", "src/Lavoisier/conversions/ILCD1_to_ECS2_conversion.py:ILCD1ToECS2FieldMapping.tech_comment"]}
{"id": "C173", "title": "Comments on geography, time and allocation survive any number of conversions", "statement": "After any number of trips to ILCD and back the comments on geography, time period and allocation read as they did, in each language.", "quantifier": "all activities, all comments, any number of trips", "why_tests_cant": "any number of trips", "anchors": ["src/Lavoisier/conversions/ECS2_to_ILCD1_conversion.py:ECS2ToILCD1FieldMapping.ECS2TTextAndImage", "src/Lavoisier/conversions/ECS2_to_ILCD1_conversion.py:ECS2ToILCD1FieldMapping.mapping", "src/Lavoisier/conversions/ILCD1_to_ECS2_conversion.py:ILCD1ToECS2FieldMapping.time_comment"]}
{"id": "C174", "title": "Texts on extrapolations and sampling survive any number of conversions", "statement": "After any number of trips to ILCD and back the extrapolations and the sampling procedure read as they did, and a data set without them still has none.", "quantifier": "all activities, any number of trips", "why_tests_cant": "any number of trips", "anchors": ["src/Lavoisier/conversions/ECS2_to_ILCD1_conversion.py:ECS2ToILCD1FieldMapping.mapping", "src/Lavoisier/conversions/ILCD1_to_ECS2_conversion.py:ILCD1ToECS2FieldMapping.modelling_constants", "src/Lavoisier/conversions/ILCD1_to_ECS2_conversion.py:ILCD1ToECS2FieldMapping.deviation_comment"]}
{"id": "C175", "title": "Production volumes survive conversion to ILCD and back", "statement": "The production volumes of an activity are written in the ILCD data set, and come back from it.", "quantifier": "all activities, any number of production volumes", "why_tests_cant": "composes two converters over all texts, languages and numbers", "anchors": ["src/Lavoisier/conversions/ECS2_to_ILCD1_conversion.py:ECS2ToILCD1IntermediateFlowConversion.ProductionVolume", "src/Lavoisier/conversions/ILCD1_to_ECS2_conversion.py:ILCD1ToECS2FieldMapping.mapping"]}
{"id": "C176", "title": "The general comment does not grow with each conversion", "statement": "After any number of trips to ILCD and back the general comment reads as it does after one.", "quantifier": "all activities, any number of trips", "why_tests_cant": "any number of trips", "anchors": ["src/Lavoisier/conversions/ECS2_to_ILCD1_conversion.py:ECS2ToILCD1BasicFieldMapping.reset_conversion", "src/Lavoisier/conversions/ILCD1_to_ECS2_conversion.py:ILCD1ToECS2FieldMapping.general_comment", "src/Lavoisier/conversions/ILCD1_to_ECS2_conversion.py:ILCD1ToECS2FieldMapping.default"]}
{"id": "C177", "title": "The name of the place survives conversion to ILCD and back", "statement": "An activity that goes to ILCD and comes back has the same name of its place in the same language.", "quantifier": "all activities, all names of places", "why_tests_cant": "composes two converters over all texts, languages and numbers", "anchors": ["src/Lavoisier/conversions/ECS2_to_ILCD1_conversion.py:ECS2ToILCD1FieldMapping.mapping", "src/Lavoisier/conversions/ILCD1_to_ECS2_conversion.py:ILCD1ToECS2FieldMapping.mapping"]}
{"id": "C178", "title": "Options are those of the converter in use", "statement": "Each file is converted with the values that the options of its converter have when convert is called, whatever other converters there are and whatever they did.", "quantifier": "all programs with any converters, assignments, runs, and files that fail", "why_tests_cant": "any number of converters, used in any order", "anchors": ["src/Lavoisier/converter.py:Converter._apply_configurations", "src/Lavoisier/converter.py:Converter.__setattr__", "src/Lavoisier/converter.py:Converter.start_conversion"]}
{"id": "C179", "title": "The mapping of elementary flows is the one asked for", "statement": "Each file is converted with the mapping of elementary flows that was last assigned to its converter, or with the one of its flow lists.", "quantifier": "all programs with any converters, assignments, runs, and files that fail", "why_tests_cant": "any number of converters, used in any order", "anchors": ["src/Lavoisier/converter.py:Converter._set_field_mapping", "src/Lavoisier/converter.py:Converter.start_conversion", "src/Lavoisier/conversions/factories.py:MappingFactory.get_mapping"]}
{"id": "C180", "title": "Files go to the folder asked for", "statement": "Each file is written below the folder that save_path of its converter names when convert is called.", "quantifier": "all programs with any converters, assignments, runs, and files that fail", "why_tests_cant": "any number of converters, used in any order", "anchors": ["src/Lavoisier/converter.py:Converter.start_conversion"]}
{"id": "C181", "title": "The files converted are those of the path asked for", "statement": "A run converts the files at the path that was last assigned to the converter, in their order, up to the first that fails.", "quantifier": "all programs with any converters, assignments, runs, and files that fail", "why_tests_cant": "any number of converters, used in any order", "anchors": ["src/Lavoisier/converter.py:Converter.convert", "src/Lavoisier/converter.py:Converter.__init__"]}
{"id": "C182", "title": "A process without exchanges is converted like any other", "statement": "Whether and how an ILCD process is converted does not depend on the files converted before it.", "quantifier": "all programs, all files with and without exchanges", "why_tests_cant": "any number of converters, used in any order", "anchors": ["src/Lavoisier/converter.py:Converter._set_post_instance_file_information", "src/Lavoisier/converter.py:Converter._get_pre_instance_file_information", "src/Lavoisier/conversions/ILCD1_to_ECS2_conversion.py:ILCD1ToECS2FieldMapping.set_file_info"]}
{"id": "C183", "title": "Variables of a process stay with it", "statement": "An openLCA process is converted with its own variables, and with none if it has none.", "quantifier": "all programs, all files with and without variables, and files that fail", "why_tests_cant": "any number of converters, used in any order", "anchors": ["src/Lavoisier/conversions/ILCD1_to_ILCD1_conversion.py:ILCD1ToILCD1FieldMapping.end_conversion", "src/Lavoisier/conversions/ILCD1_to_ILCD1_conversion.py:ILCD1ToILCD1FieldMapping.mapping"]}
{"id": "C184", "title": "Parts of a converter can be replaced", "statement": "Iterator, input manager, output manager and the configuration of the mapping can be assigned, and what was assigned is used by the next run.", "quantifier": "all values assigned", "why_tests_cant": "any class or object of the user", "anchors": ["src/Lavoisier/converter.py:Converter.iterator", "src/Lavoisier/converter.py:Converter.input_manager", "src/Lavoisier/converter.py:Converter.output_manager", "src/Lavoisier/converter.py:Converter.mapping"]}
{"id": "C185", "title": "Geographical restrictions survive", "statement": "The description of restrictions of an ILCD process is the same, in every language, after the conversion to EcoSpold2 and back.", "quantifier": "all processes whose conversion succeeds, one text per language within the length limit, any number of trips", "why_tests_cant": "any number of languages, any text and any number of trips", "anchors": ["src/Lavoisier/conversions/ILCD1_to_ECS2_conversion.py:ILCD1ToECS2FieldMapping.mapping", "src/Lavoisier/conversions/ECS2_to_ILCD1_conversion.py:ECS2ToILCD1FieldMapping.mapping", "src/Lavoisier/conversions/ECS2_to_ILCD1_conversion.py:ECS2ToILCD1FieldMapping.ECS2TTextAndImage"]}
{"id": "C186", "title": "Deviations from the LCI method approaches survive", "statement": "The texts on deviations from LCI method approaches are the same, in every language, after the conversion to EcoSpold2 and back.", "quantifier": "all processes whose conversion succeeds, all texts, any number of trips", "why_tests_cant": "any number of languages, any text and any number of trips", "anchors": ["src/Lavoisier/conversions/ILCD1_to_ECS2_conversion.py:ILCD1ToECS2FieldMapping.mapping", "src/Lavoisier/conversions/ECS2_to_ILCD1_conversion.py:ECS2ToILCD1FieldMapping.mapping", "src/Lavoisier/conversions/ECS2_to_ILCD1_conversion.py:ECS2ToILCD1FieldMapping.ECS2TTextAndImage", "src/Lavoisier/conversions/ECS2_to_ILCD1_conversion.py:ECS2ToILCD1FieldMapping.reset_conversion"]}
{"id": "C187", "title": "Time and technology descriptions gain one line", "statement": "The descriptions of time and of technology come back as they were, with one line in front of the English text; more trips add nothing.", "quantifier": "all processes whose conversion succeeds, all texts without the marks of the converter and within the length limit, any number of trips", "why_tests_cant": "any number of languages, any text and any number of trips", "anchors": ["src/Lavoisier/conversions/ILCD1_to_ECS2_conversion.py:ILCD1ToECS2FieldMapping.mapping", "src/Lavoisier/conversions/ECS2_to_ILCD1_conversion.py:ECS2ToILCD1FieldMapping.mapping", "src/Lavoisier/conversions/ECS2_to_ILCD1_conversion.py:ECS2ToILCD1FieldMapping.ECS2TTextAndImage", "src/Lavoisier/conversions/ILCD1_to_ECS2_conversion.py:ILCD1ToECS2FieldMapping.time_comment", "src/Lavoisier/conversions/ILCD1_to_ECS2_conversion.py:ILCD1ToECS2FieldMapping.tech_comment"]}
{"id": "C188", "title": "The general comment survives", "statement": "The general comment of an ILCD process is the same, in every language, after the conversion to EcoSpold2 and back.", "quantifier": "all processes whose conversion succeeds, all texts, any number of trips", "why_tests_cant": "any number of languages, any text and any number of trips", "anchors": ["src/Lavoisier/conversions/ILCD1_to_ECS2_conversion.py:ILCD1ToECS2FieldMapping.mapping", "src/Lavoisier/conversions/ECS2_to_ILCD1_conversion.py:ECS2ToILCD1FieldMapping.mapping", "src/Lavoisier/conversions/ECS2_to_ILCD1_conversion.py:ECS2ToILCD1FieldMapping.ECS2TTextAndImage", "src/Lavoisier/conversions/ILCD1_to_ECS2_conversion.py:ILCD1ToECS2FieldMapping.general_comment"]}
{"id": "C189", "title": "Base names survive", "statement": "The base names of an ILCD process are the same after the conversion to EcoSpold2 and back.", "quantifier": "all processes whose conversion succeeds, all texts, any number of trips", "why_tests_cant": "any number of languages, any text and any number of trips", "anchors": ["src/Lavoisier/conversions/ILCD1_to_ECS2_conversion.py:ILCD1ToECS2FieldMapping.mapping", "src/Lavoisier/conversions/ECS2_to_ILCD1_conversion.py:ECS2ToILCD1FieldMapping.mapping"]}
{"id": "C190", "title": "The location survives", "statement": "The location code of an ILCD process is the same after the conversion to EcoSpold2 and back.", "quantifier": "all processes whose conversion succeeds, all location codes of at most 40 characters, any number of trips", "why_tests_cant": "any number of languages, any text and any number of trips", "anchors": ["src/Lavoisier/conversions/ILCD1_to_ECS2_conversion.py:ILCD1ToECS2FieldMapping.mapping", "src/Lavoisier/conversions/ECS2_to_ILCD1_conversion.py:ECS2ToILCD1FieldMapping.mapping"]}
{"id": "C191", "title": "Mix and location types survive", "statement": "The mix and location types of an ILCD process are the same after the conversion to EcoSpold2 and back.", "quantifier": "all processes whose conversion succeeds, all texts, any number of trips", "why_tests_cant": "any number of languages, any text and any number of trips", "anchors": ["src/Lavoisier/conversions/ILCD1_to_ECS2_conversion.py:ILCD1ToECS2FieldMapping.mapping", "src/Lavoisier/conversions/ECS2_to_ILCD1_conversion.py:ECS2ToILCD1FieldMapping.mapping"]}
{"id": "C192", "title": "Synonyms survive", "statement": "The synonyms of an ILCD process are the same after the conversion to EcoSpold2 and back.", "quantifier": "all processes whose conversion succeeds, all texts, any number of trips", "why_tests_cant": "any number of languages, any text and any number of trips", "anchors": ["src/Lavoisier/conversions/ILCD1_to_ECS2_conversion.py:ILCD1ToECS2FieldMapping.mapping", "src/Lavoisier/conversions/ECS2_to_ILCD1_conversion.py:ECS2ToILCD1FieldMapping.mapping"]}
{"id": "C193", "title": "Deviations stay in their fields", "statement": "The four fields for deviations from principles are the same after the conversion to EcoSpold2 and back.", "quantifier": "all processes whose conversion succeeds, all texts, any number of trips", "why_tests_cant": "any number of languages, any text and any number of trips", "anchors": ["src/Lavoisier/conversions/ILCD1_to_ECS2_conversion.py:ILCD1ToECS2FieldMapping.mapping", "src/Lavoisier/conversions/ECS2_to_ILCD1_conversion.py:ECS2ToILCD1FieldMapping.mapping", "src/Lavoisier/conversions/ECS2_to_ILCD1_conversion.py:ECS2ToILCD1FieldMapping.reset_conversion", "src/Lavoisier/conversions/ILCD1_to_ECS2_conversion.py:ILCD1ToECS2FieldMapping.deviation_comment"]}
{"id": "C194", "title": "The text on data treatment survives", "statement": "The text on data treatment and extrapolations is the same after the conversion to EcoSpold2 and back, and no text of the fields next to it is lost.", "quantifier": "all processes whose conversion succeeds, all texts, any number of trips", "why_tests_cant": "any number of languages, any text and any number of trips", "anchors": ["src/Lavoisier/conversions/ILCD1_to_ECS2_conversion.py:ILCD1ToECS2FieldMapping.mapping", "src/Lavoisier/conversions/ECS2_to_ILCD1_conversion.py:ECS2ToILCD1FieldMapping.mapping", "src/Lavoisier/conversions/ILCD1_to_ECS2_conversion.py:ILCD1ToECS2FieldMapping.deviation_comment"]}
{"id": "C195", "title": "Modelling constants and sampling procedure survive", "statement": "The modelling constants and the sampling procedure are the same after the conversion to EcoSpold2 and back.", "quantifier": "all processes whose conversion succeeds, all texts, any number of trips", "why_tests_cant": "any number of languages, any text and any number of trips", "anchors": ["src/Lavoisier/conversions/ILCD1_to_ECS2_conversion.py:ILCD1ToECS2FieldMapping.mapping", "src/Lavoisier/conversions/ECS2_to_ILCD1_conversion.py:ECS2ToILCD1FieldMapping.mapping", "src/Lavoisier/conversions/ILCD1_to_ECS2_conversion.py:ILCD1ToECS2FieldMapping.modelling_constants"]}
{"id": "C196", "title": "Production volumes survive", "statement": "The text on the annual supply or production volume is the same after the conversion to EcoSpold2 and back.", "quantifier": "all processes whose conversion succeeds, all texts, any number of trips", "why_tests_cant": "any number of languages, any text and any number of trips", "anchors": ["src/Lavoisier/conversions/ILCD1_to_ECS2_conversion.py:ILCD1ToECS2FieldMapping.mapping", "src/Lavoisier/conversions/ECS2_to_ILCD1_conversion.py:ECS2ToILCD1FieldMapping.mapping"]}
{"id": "C197", "title": "The sampling procedure gathers the texts on data collection", "statement": "In every language, the EcoSpold2 sampling procedure is the ILCD sampling procedure followed by the texts on modelling constants, cut-off, selection, collection period, uncertainty adjustments and use advice, each under its heading and in the order of the file.", "quantifier": "all processes whose conversion succeeds, all visible texts without the marks of the converter and within the length limit, at most one sampling procedure per language, all orders of elements", "why_tests_cant": "any number of elements, languages and texts, in any order", "anchors": ["src/Lavoisier/conversions/ILCD1_to_ECS2_conversion.py:ILCD1ToECS2FieldMapping.mapping", "src/Lavoisier/formats/helpers.py:ILCD1Helper.text_add_index", "src/Lavoisier/conversions/ILCD1_to_ECS2_conversion.py:ILCD1ToECS2FieldMapping.modelling_constants"]}
{"id": "C198", "title": "The extrapolations gather the texts on deviations", "statement": "In every language, the EcoSpold2 extrapolations are the texts on data treatment and on deviations from principles, each under its heading and in the order of the file, without deviations that say none.", "quantifier": "all processes whose conversion succeeds, all visible texts without the marks of the converter and within the length limit, all orders of elements", "why_tests_cant": "any number of elements, languages and texts, in any order", "anchors": ["src/Lavoisier/conversions/ILCD1_to_ECS2_conversion.py:ILCD1ToECS2FieldMapping.mapping", "src/Lavoisier/formats/helpers.py:ILCD1Helper.text_add_index", "src/Lavoisier/conversions/ILCD1_to_ECS2_conversion.py:ILCD1ToECS2FieldMapping.deviation_comment"]}
{"id": "C199", "title": "The general comment gathers identifier, model, project and applications", "statement": "In every language, the EcoSpold2 general comment is the ILCD one together with the identifier of the sub-data set, the model description, the project and the intended applications, in the order of the file.", "quantifier": "all processes whose conversion succeeds, all visible texts without the marks of the converter and within the length limit, all orders of elements", "why_tests_cant": "any number of elements, languages and texts, in any order", "anchors": ["src/Lavoisier/conversions/ILCD1_to_ECS2_conversion.py:ILCD1ToECS2FieldMapping.mapping", "src/Lavoisier/formats/helpers.py:ILCD1Helper.text_add_index", "src/Lavoisier/conversions/ILCD1_to_ECS2_conversion.py:ILCD1ToECS2FieldMapping.general_comment"]}
{"id": "C200", "title": "Restrictions of sublocations join those of the location", "statement": "In every language, the EcoSpold2 geography comment is the restrictions of the location and of the sublocations, in the order of the file.", "quantifier": "all processes whose conversion succeeds, all visible texts within the length limit, all orders of elements", "why_tests_cant": "any number of elements, languages and texts, in any order", "anchors": ["src/Lavoisier/conversions/ILCD1_to_ECS2_conversion.py:ILCD1ToECS2FieldMapping.mapping", "src/Lavoisier/formats/helpers.py:ILCD1Helper.text_add_index"]}
{"id": "C201", "title": "All parts of a process name are kept", "statement": "Base name, treatment, mix and functional unit of a process name are all part of the EcoSpold2 activity name.", "quantifier": "all processes whose conversion succeeds, all texts and languages, all orders of elements", "why_tests_cant": "any number of elements, languages and texts, in any order", "anchors": ["src/Lavoisier/conversions/ILCD1_to_ECS2_conversion.py:ILCD1ToECS2FieldMapping.mapping"]}
{"id": "C202", "title": "No text of a process is lost", "statement": "Every text of a process is found again in the EcoSpold2 data set.", "quantifier": "all processes whose conversion succeeds, all texts and languages, all orders of elements", "why_tests_cant": "any number of elements, languages and texts, in any order", "anchors": ["src/Lavoisier/conversions/ILCD1_to_ECS2_conversion.py:ILCD1ToECS2FieldMapping.mapping"]}
{"id": "C203", "title": "Allocation stays allocation", "statement": "An EcoSpold2 system model that allocates gets an ILCD allocation approach, one that substitutes a substitution approach.", "quantifier": "all processes whose conversion succeeds, all texts and languages, all orders of elements", "why_tests_cant": "any number of elements, languages and texts, in any order", "anchors": ["src/Lavoisier/conversions/ECS2_to_ILCD1_conversion.py:ECS2ToILCD1FieldMapping.mapping", "src/Lavoisier/conversions/ECS2_to_ILCD1_conversion.py:system_model_2"]}
{"id": "C204", "title": "A failure of one converter does not harm a new one", "statement": "Whatever happened to other converters before, a new converter converts a file that can be converted, with the mapping and into the folder asked for.", "quantifier": "all programs, all requests with a readable mapping, all files of a supported version; ILCD processes have exchanges (C182)", "why_tests_cant": "any number of converters, used in any order, and any file that fails", "anchors": ["src/Lavoisier/converter.py:Converter._set_field_mapping", "src/Lavoisier/converter.py:Converter.convert"]}
{"id": "C205", "title": "Parameters survive the trip to ILCD and back", "statement": "A parameter of an EcoSpold2 activity converted to ILCD and back has its identifier, name, variable name, value and formula.", "quantifier": "all activities, all parameters without uncertainty, all other variables of the data set", "why_tests_cant": "any number of parameters with any names, values and formulas", "anchors": ["src/Lavoisier/conversions/ECS2_to_ILCD1_conversion.py:ECS2ToILCD1ParameterConversion.__init__", "src/Lavoisier/conversions/ECS2_to_ILCD1_conversion.py:ECS2ToILCD1Amount.construct_variable", "src/Lavoisier/conversions/ILCD1_to_ECS2_conversion.py:ILCD1ToECS2VariableConversion.create_parameters"]}
{"id": "C206", "title": "Comments of parameters survive the trip to ILCD and back", "statement": "The comments of a parameter converted to ILCD and back are those it had, one for each language.", "quantifier": "all parameters without uncertainty, all comments in any languages", "why_tests_cant": "any text in any language", "anchors": ["src/Lavoisier/conversions/ECS2_to_ILCD1_conversion.py:ECS2ToILCD1ParameterConversion.__init__", "src/Lavoisier/conversions/ECS2_to_ILCD1_conversion.py:ECS2ToILCD1VariableConversion.create", "src/Lavoisier/conversions/ILCD1_to_ECS2_conversion.py:ILCD1ToECS2VariableConversion.__init__"]}
{"id": "C207", "title": "Units of parameters survive the trip to ILCD and back", "statement": "The unit of a parameter converted to ILCD and back is the one it had.", "quantifier": "all parameters without uncertainty, all units, all comments", "why_tests_cant": "any unit and any comments beside it", "anchors": ["src/Lavoisier/conversions/ECS2_to_ILCD1_conversion.py:ECS2ToILCD1Amount.construct_variable", "src/Lavoisier/conversions/ILCD1_to_ECS2_conversion.py:ILCD1ToECS2VariableConversion.__init__", "src/Lavoisier/conversions/ILCD1_to_ECS2_conversion.py:ILCD1ToECS2VariableConversion.create_parameters"]}
{"id": "C208", "title": "The log counts exchanges, volumes and parameters", "statement": "The statistics in the log of a conversion to ILCD give how many exchanges with products and with the environment, production volumes and parameters were found, and how many of them are in the ILCD file.", "quantifier": "all activities with amounts in units of ILCD", "why_tests_cant": "any number of elements, and of files", "anchors": ["src/Lavoisier/conversions/ECS2_to_ILCD1_conversion.py:ECS2ToILCD1FieldMapping.get_statistics", "src/Lavoisier/conversions/ECS2_to_ILCD1_conversion.py:ECS2ToILCD1FieldMapping.mapping"]}
{"id": "C209", "title": "The log counts variables", "statement": "The statistics in the log of a conversion to ILCD give how many amounts have a variable, and how many variables the ILCD file has.", "quantifier": "all activities with amounts in units of ILCD, with the option for variables or without it", "why_tests_cant": "any number of elements, and of files", "anchors": ["src/Lavoisier/conversions/ECS2_to_ILCD1_conversion.py:ECS2ToILCD1Amount.construct_variable", "src/Lavoisier/conversions/ECS2_to_ILCD1_conversion.py:ECS2ToILCD1VariableConversion.create"]}
{"id": "C210", "title": "The log counts uncertainties", "statement": "The statistics in the log of a conversion to ILCD give how many distributions there are, and how many of them the ILCD file has.", "quantifier": "all activities with amounts in units of ILCD, with the option for variables or without it", "why_tests_cant": "any number of elements, and of files", "anchors": ["src/Lavoisier/conversions/ECS2_to_ILCD1_conversion.py:ECS2ToILCD1UncertaintyConversion.get_uncertainty", "src/Lavoisier/conversions/ECS2_to_ILCD1_conversion.py:ECS2ToILCD1VariableConversion.create"]}
{"id": "C211", "title": "Statistics are those of the run", "statement": "Converted file by file, each log has the statistics of its file; converted to a database, the log has the sums over all files.", "quantifier": "every list of files that are converted, with the option for variables or without it", "why_tests_cant": "any number of elements, and of files", "anchors": ["src/Lavoisier/converter.py:Converter.convert", "src/Lavoisier/conversions/ECS2_to_ILCD1_conversion.py:ECS2ToILCD1BasicFieldMapping.end_conversion"]}
{"id": "C212", "title": "Data set aside are those of the file", "statement": "After any number of files converted one after the other, what was set aside of the last data set is its own: attributes it has with their values, and none that it does not have.", "quantifier": "every list of data sets with the same version of the schema, without the cases of C133 and C134", "why_tests_cant": "any number of files, with any attributes, in any order", "anchors": ["src/Lavoisier/conversions/ECS2_to_ILCD1_conversion.py:ECS2ToILCD1BasicFieldMapping.__init__", "src/Lavoisier/conversions/ECS2_to_ILCD1_conversion.py:ECS2ToILCD1BasicFieldMapping.reset_conversion", "src/Lavoisier/converter.py:Converter.start_conversion"]}
{"id": "C213", "title": "Mean and resulting amount of a moved flow agree", "statement": "An exchange without variable whose meanAmount and resultingAmount are equal has equal ones after the conversion of ILCD to ILCD.", "quantifier": "every mapping, every flow with any units, every exchange without OpenLCA attributes and without variable", "why_tests_cant": "real-valued amounts and factors, any mapping", "anchors": ["src/Lavoisier/conversions/ILCD1_to_ILCD1_conversion.py:ILCD1ToILCD1ElementaryFlowConversion.__init__"]}
{"id": "C214", "title": "An exchange with a mean amount can be converted", "statement": "A process whose exchanges have the meanAmount and not the optional resultingAmount can be converted from ILCD to ILCD.", "quantifier": "every mapping, every list of exchanges", "why_tests_cant": "any position of such an exchange in a list of any length", "anchors": ["src/Lavoisier/conversions/ILCD1_to_ILCD1_conversion.py:ILCD1ToILCD1ElementaryFlowConversion.__init__"]}
{"id": "C215", "title": "Converting again changes nothing", "statement": "A process that was converted from ILCD to ILCD and is converted again with the same mapping has the same exchanges.", "quantifier": "every mapping, every flow with any units, every exchange without OpenLCA attributes and without variable", "why_tests_cant": "lists of any length, mappings in which flows lead to each other", "anchors": ["src/Lavoisier/conversions/ILCD1_to_ILCD1_conversion.py:ILCD1ToILCD1ElementaryFlowConversion.__init__"]}
{"id": "C216", "title": "The inverse mapping leads back", "statement": "A flow that was moved by a mapping and is moved by its inverse, with the units exchanged and the inverse factor, is the first flow with its first amount.", "quantifier": "every mapping, every flow with any units, every exchange without OpenLCA attributes and without variable", "why_tests_cant": "real-valued amounts and factors, any units", "anchors": ["src/Lavoisier/conversions/ILCD1_to_ILCD1_conversion.py:ILCD1ToILCD1ElementaryFlowConversion.__init__"]}
{"id": "C217", "title": "Exchanges do not depend on those before them", "statement": "In a conversion of ILCD to ILCD an exchange is converted with the units of the archive as it was given, whatever exchanges come before it.", "quantifier": "every archive, every mapping, every list of exchanges", "why_tests_cant": "lists of any length over a folder that each exchange may change", "anchors": ["src/Lavoisier/conversions/ILCD1_to_ILCD1_conversion.py:ILCD1ToILCD1ElementaryFlowConversion.__init__", "src/Lavoisier/conversions/ILCD1_to_ILCD1_conversion.py:ILCD1ToILCD1ElementaryFlowConversion.get_unit"]}
{"id": "C218", "title": "A copied flow names the property of its unit", "statement": "After the conversion of an exchange whose flow is not in the mapping, the reference property of the flow data set is the property of its main unit and the other properties are as before.", "quantifier": "every archive, every flow, every list of properties", "why_tests_cant": "any number and order of properties", "anchors": ["src/Lavoisier/conversions/ILCD1_to_ILCD1_conversion.py:ILCD1ToILCD1ElementaryFlowConversion.__init__"]}
{"id": "C219", "title": "Nothing else of a copied flow changes", "statement": "In the flow data set of a flow that is not in the mapping only the reference of the first property changes, to the property of the main unit; doing it again changes nothing.", "quantifier": "every tree", "why_tests_cant": "trees of any shape and depth", "anchors": ["src/Lavoisier/conversions/ILCD1_to_ILCD1_conversion.py:ILCD1ToILCD1ElementaryFlowConversion.__init__"]}
{"id": "C220", "title": "Every flow data set can be copied", "statement": "The flow data set of a flow that is not in the mapping can be copied whatever optional sections it has.", "quantifier": "every tree", "why_tests_cant": "trees of any shape", "anchors": ["src/Lavoisier/conversions/ILCD1_to_ILCD1_conversion.py:ILCD1ToILCD1ElementaryFlowConversion.__init__"]}
{"id": "C221", "title": "Sources and contacts of the archive are in the output", "statement": "A conversion of ILCD to ILCD writes every source and contact file of the archive with its content and leaves the files of other names alone.", "quantifier": "every archive, every state of the output", "why_tests_cant": "folders of any size, present or absent", "anchors": ["src/Lavoisier/conversions/ILCD1_to_ILCD1_conversion.py:ILCD1ToILCD1BasicFieldMapping.set_file_info", "src/Lavoisier/formats/ILCD1_format.py:ILCD1Output.start_conversion"]}
{"id": "C222", "title": "Documents of the archive are in the output", "statement": "The external documents of the archive, to which its sources refer, are in the output of ILCD to ILCD.", "quantifier": "every list of archives", "why_tests_cant": "folders of any size", "anchors": ["src/Lavoisier/conversions/ILCD1_to_ILCD1_conversion.py:ILCD1ToILCD1BasicFieldMapping.set_file_info", "src/Lavoisier/formats/ILCD1_format.py:ILCD1Output.start_conversion"]}
{"id": "C223", "title": "Files of several archives in one output", "statement": "When processes of several archives are written to one output, every source of each of them is in it with its content.", "quantifier": "every list of archives", "why_tests_cant": "any number of archives and files", "anchors": ["src/Lavoisier/conversions/ILCD1_to_ILCD1_conversion.py:ILCD1ToILCD1BasicFieldMapping.set_file_info"]}
{"id": "C224", "title": "The properties of a copied flow are in the output", "statement": "The properties of a flow data set that is copied from the archive are in the output of ILCD to ILCD.", "quantifier": "every archive, every flow, every mapping", "why_tests_cant": "any number of properties", "anchors": ["src/Lavoisier/conversions/ILCD1_to_ILCD1_conversion.py:ILCD1ToILCD1ElementaryFlowConversion.__init__"]}
{"id": "C225", "title": "An accepted ILCD input is opened", "statement": "Every path that the ILCD input accepts (a file with one of the valid endings, or a folder) can be opened and gives its processes to the conversion.", "quantifier": "every file name and content, every folder", "why_tests_cant": "any number of names, members and entries", "anchors": ["src/Lavoisier/formats/abstractions.py:PathVerifier._verify_path", "src/Lavoisier/formats/ILCD1_format.py:ILCD1Input._single_file_input", "src/Lavoisier/formats/ILCD1_format.py:ILCD1Input._multiple_file_input"]}
{"id": "C226", "title": "A folder of ILCD archives becomes one database", "statement": "In database mode the processes of all archives of an input folder are written to one output, closed once after the last process.", "quantifier": "every folder of archives", "why_tests_cant": "any number of archives, each of any size", "anchors": ["src/Lavoisier/formats/ILCD1_format.py:ILCD1Input._multiple_file_input", "src/Lavoisier/formats/abstractions.py:InputTemplate._yield_files"]}
{"id": "C227", "title": "A broken archive does not stop the others", "statement": "When one archive of an input folder cannot be opened, the processes of the other archives are converted.", "quantifier": "every folder, every place of the broken archive", "why_tests_cant": "any number of archives before and after", "anchors": ["src/Lavoisier/formats/ILCD1_format.py:ILCD1Input._multiple_file_input", "src/Lavoisier/formats/ILCD1_format.py:ILCD1Input._extract"]}
{"id": "C228", "title": "Endings in capital letters", "statement": "Archives and processes are found whether their ending is written in small or capital letters.", "quantifier": "every folder, every archive", "why_tests_cant": "any number of names", "anchors": ["src/Lavoisier/formats/abstractions.py:InputTemplate._get_files_of_extension", "src/Lavoisier/formats/ILCD1_format.py:ILCD1Input._extract"]}
{"id": "C229", "title": "The log tells which records belong to which data set", "statement": "The records of every converted data set are in the log, followed by the line that says that the conversion of this data set has ended.", "quantifier": "every list of data sets, every state of the output folder", "why_tests_cant": "any number of data sets with any records", "anchors": ["src/Lavoisier/formats/utils.py:DefaultLog.reset_log", "src/Lavoisier/formats/ECS2_format.py:ECS2Output.start_conversion", "src/Lavoisier/formats/abstractions.py:OutputTemplate.end_single_output_file", "src/Lavoisier/converter.py:Converter.convert"]}
{"id": "C230", "title": "A log is about one conversion", "statement": "The log of a conversion to EcoSpold2 holds the records of this conversion and no others.", "quantifier": "every data set, every state of the output folder", "why_tests_cant": "logs of any earlier conversions", "anchors": ["src/Lavoisier/formats/utils.py:DefaultLog.start_log", "src/Lavoisier/formats/ECS2_format.py:ECS2Output.start_conversion"]}
{"id": "C231", "title": "The list of flows that were not converted", "statement": "The file of flows that were not converted names every flow that the mapping does not convert, and no other.", "quantifier": "every data set, every state of the output folder", "why_tests_cant": "any number of records in any order", "anchors": ["src/Lavoisier/formats/utils.py:DefaultLog.end_log", "src/Lavoisier/conversions/ILCD1_to_ECS2_conversion.py:ILCD1ToECS2UncertaintyConversion._get_data"]}
{"id": "C232", "title": "A conversion leaves the logging of the application as it is", "statement": "After a conversion the application logs to the handlers it had before.", "quantifier": "every list of data sets, every state", "why_tests_cant": "any number of data sets", "anchors": ["src/Lavoisier/formats/utils.py:DefaultLog.start_log", "src/Lavoisier/formats/utils.py:DefaultLog.end_log"]}
{"id": "C233", "title": "A written archive can be read again", "statement": "The archive that a conversion to ILCD writes, given as input to another conversion, gives exactly the processes that were written.", "quantifier": "every output with at least one process; identifiers and names of the other written files contain no slash, and only processes are written to the folder of processes", "why_tests_cant": "any number of processes and other files", "anchors": ["src/Lavoisier/formats/utils.py:zipdir", "src/Lavoisier/formats/ILCD1_format.py:ILCD1Output.write_process", "src/Lavoisier/formats/ILCD1_format.py:ILCD1Input._extract"]}
{"id": "C234", "title": "The archive holds the output", "statement": "All files and folders of an ILCD output are in its archive at their place, wherever the temporary folder is.", "quantifier": "every output, every temporary folder", "why_tests_cant": "any number of files", "anchors": ["src/Lavoisier/formats/utils.py:zipdir", "src/Lavoisier/formats/ILCD1_format.py:ILCD1Output.start_conversion", "src/Lavoisier/formats/ILCD1_format.py:ILCD1Output.end_conversion"]}
{"id": "C235", "title": "Every process name gives a file name that the file system takes", "statement": "The names of the logs, data sets and archives that a conversion writes are not longer than the 255 bytes that file systems allow, for every legal name of the process.", "quantifier": "every text, every encoding that needs at least one byte for a character and one for those of ASCII", "why_tests_cant": "texts of any length", "anchors": ["src/Lavoisier/formats/ECS2_format.py:ECS2Output.start_conversion", "src/Lavoisier/data_structures/ILCD1_structure.py:ILCD1Structure.get_filename", "src/Lavoisier/data_structures/ECS2_structure.py:ECS2Structure.get_filename"]}
{"id": "C236", "title": "File names hold data of the data set only", "statement": "The name of an output is made of the name, the place and the years of the data set; what is missing is left out.", "quantifier": "every data set", "why_tests_cant": "any texts, present or absent", "anchors": ["src/Lavoisier/data_structures/ILCD1_structure.py:ILCD1Structure.get_filename", "src/Lavoisier/data_structures/ECS2_structure.py:ECS2Structure.get_filename"]}
{"id": "C237", "title": "The screen shows the files and messages of a conversion, whatever was converted before", "statement": "A conversion shows, for every file up to the first that fails, the messages before it is opened, the line with its name and the messages after; converters used before play no part.", "quantifier": "every value of quiet, every list of files with any messages and errors, every sequence of conversions", "why_tests_cant": "sequences of conversions of any length share the attribute Print.quiet", "anchors": ["src/Lavoisier/conversions/utils.py:Print.output", "src/Lavoisier/converter.py:Converter.start_conversion", "src/Lavoisier/converter.py:Converter.iterate", "src/Lavoisier/converter.py:Converter.convert"]}
{"id": "C238", "title": "A quiet converter prints nothing", "statement": "With quiet set, a conversion shows nothing on the screen.", "quantifier": "every true value of quiet, every list of files with any messages and errors", "why_tests_cant": "any number of files and messages", "anchors": ["src/Lavoisier/conversions/utils.py:Print.output", "src/Lavoisier/converter.py:Converter.start_conversion", "src/Lavoisier/converter.py:Converter.iterate"]}
{"id": "C239", "title": "A pedigree matrix that does not fit the variances is reported", "statement": "If the variance with pedigree uncertainty of an EcoSpold2 distribution is not the basic variance plus what the scores of its pedigree matrix add, a warning is given, and otherwise none.", "quantifier": "every matrix with attributes and scores of EcoSpold2 in any order, every pair of variances", "why_tests_cant": "all matrices with all variances", "anchors": ["src/Lavoisier/conversions/ECS2_to_ILCD1_conversion.py:ECS2ToILCD1UncertaintyConversion.__init__", "src/Lavoisier/conversions/data.py:pedigree"]}
{"id": "C240", "title": "The comparison of pedigree and variance stops no conversion", "statement": "The comparison only warns: whatever scores and variances a distribution has, its conversion goes on.", "quantifier": "every list of attributes of the matrix and of the distribution", "why_tests_cant": "any texts as scores and variances", "anchors": ["src/Lavoisier/conversions/ECS2_to_ILCD1_conversion.py:ECS2ToILCD1UncertaintyConversion.__init__", "src/Lavoisier/conversions/data.py:pedigree"]}
