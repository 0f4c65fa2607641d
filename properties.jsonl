{"id": "C01", "title": "Colour text round trip", "statement": "Writing any colour as AABBGGRR text and reading that text back yields the same colour, and the text is always exactly eight lower-case hex digits; channel setters change only their own channel; converting to ARGB and back is the identity.", "quantifier": "for every 32-bit colour and every channel value", "why_tests_cant": "There are 2^32 colours and four channels; tests sample a handful.", "anchors": ["src/kml/base/color32.h: Color32::to_string_abgr, set_color_abgr, get_color_argb, set_color_argb, set_red/green/blue/alpha", "src/kml/base/string_util.cc: b2a_hex"]}
{"id": "C02", "title": "Colour text parsing", "statement": "Reading a colour from text that, after leading white space and one optional '#', holds hex digits gives the value of the first (up to) eight digits. (The code violates this for texts shorter than eight characters that start with white space or '#', and reads out of bounds for some of them.)", "quantifier": "for every input text", "why_tests_cant": "The input space is all strings; the failing class needs a prefix and a short length together.", "anchors": ["src/kml/base/color32.h: Color32::set_color_abgr(const string&)"]}
{"id": "C03", "title": "Template expansion replaces every occurrence", "statement": "Expanding a map of keys in a text replaces every occurrence of start+key+end by the value. (The code violates this when the value is shorter than the marker or contains the key; it holds when the replacement is at least as long as the marker and does not contain the marker's first character.)", "quantifier": "for every text, key, value and delimiters", "why_tests_cant": "Unbounded text, interplay of replacement length and scanning position.", "anchors": ["src/kml/base/string_util.cc: CreateExpandedStrings"]}
{"id": "C04", "title": "Splitting on a separator is lossless", "statement": "Splitting a text on a one-character separator returns the pieces whose join with that separator is the text, and no piece contains the separator; for longer separators the pieces keep separator residue.", "quantifier": "for every text and every separator", "why_tests_cant": "All texts; longer separators never appear in the unit tests.", "anchors": ["src/kml/base/string_util.cc: SplitStringUsing"]}
{"id": "C05", "title": "CSV field quoting round trip", "statement": "For any list of at least one field values (without NUL), writing each as a quoted CSV field and splitting the line returns exactly those values.", "quantifier": "for every non-empty list of byte strings without NUL", "why_tests_cant": "Arbitrary field contents including quotes, commas and white space in every position.", "anchors": ["src/kml/base/string_util.cc: SplitQuotedUsing, SplitQuotedUsingFromString"]}
{"id": "C06", "title": "CSV splitting of unquoted lines", "statement": "A delimiter-separated line whose fields contain no quote, delimiter or edge white space splits into exactly those fields, for any delimiter and also when the last field is empty.", "quantifier": "for every list of fields and every delimiter", "why_tests_cant": "Combination of empty trailing columns and delimiters is unbounded.", "anchors": ["src/kml/base/string_util.cc: SplitQuotedUsing"]}
{"id": "C07", "title": "CSV line iteration", "statement": "Iterating a CSV text yields the non-empty lines in order, each exactly once, and terminates; runs of CR/LF count as one separator.", "quantifier": "for every CSV text", "why_tests_cant": "All texts and all mixes of CR and LF.", "anchors": ["src/kml/base/csv_splitter.cc: CsvSplitter::SplitCurrentLine, FindNextLine"]}
{"id": "C08", "title": "Suffix and case-insensitive comparison", "statement": "The ends-with test holds exactly when both strings are non-empty and the second is a suffix of the first; case-insensitive equality is an equivalence relation that equals equality of the ASCII-lower-cased strings.", "quantifier": "for every pair of strings", "why_tests_cant": "All string pairs.", "anchors": ["src/kml/base/string_util.cc: StringEndsWith, StringCaseEqual"]}
{"id": "C09", "title": "Attribute sets behave as finite maps", "statement": "After setting, cutting, merging or splitting by prefix, looking up an attribute returns what a plain map would: later values override, splitting moves exactly the prefixed keys without the prefix, and nothing else changes.", "quantifier": "for every attribute set, key and value and every sequence of operations", "why_tests_cant": "Arbitrary sequences of operations over arbitrary keys.", "anchors": ["src/kml/base/attributes.h: Attributes", "src/kml/base/attributes.cc: Attributes::MergeAttributes, FindValue, SplitByPrefix, Parse"]}
{"id": "C10", "title": "Attribute serialization can be read back", "statement": "Serializing an attribute set and reading the text with an XML reader yields the same names and values. (Holds only if no value contains a quote, '<' or '&': values are not escaped.)", "quantifier": "for every attribute set", "why_tests_cant": "All attribute values.", "anchors": ["src/kml/base/attributes.cc: Attributes::Serialize"]}
{"id": "C11", "title": "Network cache stays bounded and evicts oldest first", "statement": "With a positive capacity the cache never holds more than that many entries; saving into a full cache evicts exactly the oldest saved entry; a hit returns the item last saved for the URL. (With capacity 0 it grows without bound.)", "quantifier": "for every capacity, fetcher and sequence of fetch, save and delete operations", "why_tests_cant": "Arbitrary operation histories.", "anchors": ["src/kml/base/net_cache.h: MemoryFileCache/NetCache::Fetch, LookUp, Save, Delete, RemoveOldest"]}
{"id": "C12", "title": "Date-time to seconds", "statement": "Converting a UTC date-time to seconds agrees with the proleptic Gregorian calendar. (Violated for years before 1970.)", "quantifier": "for every year, month, day and time of day", "why_tests_cant": "All calendar dates; leap-year rules over centuries.", "anchors": ["src/kml/base/date_time.cc: DateTime::GetTimeT, is_leap"]}
{"id": "C13", "title": "Path join and split", "statement": "Splitting a path returns directory and file whose join is the path again (for paths with a proper directory part), and joining two non-empty parts puts exactly one separator between them when the left one has none.", "quantifier": "for every pair of path strings", "why_tests_cant": "All strings.", "anchors": ["src/kml/base/file.cc: File::JoinPaths, SplitFilePath"]}
{"id": "C14", "title": "Archive entry names cannot escape", "statement": "Adding an entry to a KMZ archive accepts only names that stay below the extraction directory. (The code accepts names such as a/../../x.)", "quantifier": "for every entry name", "why_tests_cant": "All names; only the prefix forms are tested.", "anchors": ["src/kml/base/zip_file.cc: ZipFile::AddEntry"]}
{"id": "C15", "title": "Element has at most one parent", "statement": "Over any sequence of set, add and delete calls, an element accepted by a parent is never accepted by a second one, and the children relation is a forest. Each call is accepted exactly when the new child has no parent and belongs to the same file (or the index exists), changes just the named field, and changes nothing when it is refused.", "quantifier": "for every sequence of DOM mutation calls", "why_tests_cant": "Arbitrary histories of mutations.", "anchors": ["src/kml/dom/element.h: Element::SetComplexChild, AddComplexChild, DeleteFromArrayAt", "src/kml/base/xml_element.h: XmlElement::SetParent"]}
{"id": "C16", "title": "Removed elements can be reused", "statement": "An element removed from a parent can be added to another parent. (Violated: removal keeps the old parent reference, so re-adding is refused, and the reference dangles once the parent is destroyed.)", "quantifier": "for every element and every removal followed by an add", "why_tests_cant": "Needs lifetime reasoning about histories.", "anchors": ["src/kml/dom/element.h: DeleteFromArrayAt, SetComplexChild", "src/kml/base/xml_element.h: XmlElement::SetParent, GetParent"]}
{"id": "C17", "title": "Schema element table", "statement": "Element names and ids correspond: every known name maps to an id whose name is that name again, ids are unique, and every other name maps to Unknown; element kinds are total.", "quantifier": "for every string and every element id", "why_tests_cant": "All strings.", "anchors": ["src/kml/dom/xsd.cc: Xsd::ElementId, ElementName, ElementType", "src/kml/dom/kml22.cc: kKml22Elements", "src/kml/dom/kml22.h: KmlDomType"]}
{"id": "C18", "title": "Enumeration values round trip", "statement": "For every enumeration type each valid value is written as a text that reads back as that value, no two values share a text, and unknown texts are rejected.", "quantifier": "for every enumeration type, every value and every text", "why_tests_cant": "All texts for all enumerations.", "anchors": ["src/kml/dom/xsd.cc: Xsd::EnumId, EnumValue", "src/kml/dom/kml22.cc: kKml22Enums"]}
{"id": "C19", "title": "Serialized tags are balanced", "statement": "Any properly nested sequence of begin, field, content and end calls produces output whose tags are balanced and nest exactly as the calls did, for any newline and indent setting.", "quantifier": "for every properly nested call sequence, newline and indent text", "why_tests_cant": "Unbounded nesting and element mixes; nil-element collapsing.", "anchors": ["src/kml/dom/xml_serializer.h: XmlSerializer::BeginById, End, EmitStart, SaveStringFieldById, SaveContent"]}
{"id": "C20", "title": "String values survive serialization", "statement": "A string value written as element content is read back by an XML reader unchanged. (Violated for values containing ']]>' or '<![CDATA['; holds for all others over legal XML characters.)", "quantifier": "for every string value", "why_tests_cant": "All strings.", "anchors": ["src/kml/dom/serializer.cc: Serializer::MaybeQuoteString, EnityEscapeXml", "src/kml/dom/xml_serializer.h: WriteQuoted, SaveStringFieldById"]}
{"id": "C21", "title": "Parser builds the element tree of the document", "statement": "For a document built from known elements, the parser returns a root element whose tree equals the document's tree; nested unknown markup is kept as text on its parent.", "quantifier": "for every document tree of nesting depth at most 100", "why_tests_cant": "Unbounded documents.", "anchors": ["src/kml/dom/kml_handler.cc: KmlHandler::StartElement, EndElement, CharData, PopRoot"]}
{"id": "C22", "title": "Well-formed known-root documents parse", "statement": "Every well-formed document with a known root and nesting at most 100 yields a root element with the document's content. (Violated: description elements nested inside unknown markup underflow a counter, after which a real description loses its text, or the parse returns nothing at all.)", "quantifier": "for every well-formed document", "why_tests_cant": "Needs a specific history of nested unknown elements and counter underflow.", "anchors": ["src/kml/dom/kml_handler.cc: KmlHandler::EndElement (in_description_)", "src/kml/dom/parser.cc: Parser::Parse"]}
{"id": "C23", "title": "Nesting limit", "statement": "A document nested deeper than 100 elements is rejected; the number of elements held by the parser never exceeds 100, and the result is no deeper than the document. (The bound on held elements is violated when nested description elements occur inside foreign markup.)", "quantifier": "for every document and every prefix of it", "why_tests_cant": "All documents, deep nestings of known and unknown elements.", "anchors": ["src/kml/dom/kml_handler.cc: kMaxNestingDepth, StartElement"]}
{"id": "C24", "title": "Observer notifications", "statement": "Observers see NewElement in document order and AddChild after the child is complete, once per known non-root element; an element vetoed in EndElement is not attached to its parent; after an observer stops the parse nobody is notified again and no root is returned. (AddChild is reported even for a vetoed child; the end of an element written as an empty-element tag is reported even after the stop.)", "quantifier": "for every document and every set of observers", "why_tests_cant": "All documents and observer decisions.", "anchors": ["src/kml/dom/kml_handler.cc: CallNewElementObservers, CallEndElementObservers, CallAddChildObservers", "src/kml/dom/parser_observer.h: ParserObserver"]}
{"id": "C25", "title": "Coordinates text parsing", "statement": "Parsing a coordinates text of lon,lat[,alt] tuples separated by single spaces yields exactly those tuples in order. (Violated when tuples are separated only by newlines, for leading '.', and for text without digits, where the loop does not terminate.)", "quantifier": "for every coordinates text", "why_tests_cant": "All texts and separator mixes.", "anchors": ["src/kml/dom/geometry.cc: Coordinates::ParseVec3, Coordinates::Parse"]}
{"id": "C26", "title": "Coordinates survive serialize and parse", "statement": "Serializing coordinates and parsing them again yields the same tuples. (Holds for pretty output with indentation; violated for raw output with two or more tuples.)", "quantifier": "for every list of tuples", "why_tests_cant": "All lists; single-tuple tests hide the fault.", "anchors": ["src/kml/dom/geometry.cc: Coordinates::Serialize, Parse", "src/kml/dom/xml_serializer.h: SaveVec3"]}
{"id": "C27", "title": "Visitors reach every child element", "statement": "A visitor driver visits every element of the tree once, parents before children in pre-order and after in post-order. (Violated: author, link and address children of a feature are never visited although they are serialized.)", "quantifier": "for every element tree", "why_tests_cant": "All trees.", "anchors": ["src/kml/dom/visitor_driver.cc: SimplePreorderDriver, SimplePostorderDriver", "src/kml/dom/feature.cc: Feature::AcceptChildren, SerializeBeforeStyleSelector"]}
{"id": "C28", "title": "Style resolution precedence", "statement": "Resolving a feature's style gives inline style values precedence over the shared style referenced by styleUrl, sub-style by sub-style and field by field, and values set by neither stay unset.", "quantifier": "for every document, feature and style", "why_tests_cant": "All combinations of shared and inline styles.", "anchors": ["src/kml/engine/style_resolver.cc: StyleResolver::CreateResolvedStyle", "src/kml/engine/style_merger.cc: StyleMerger::MergeStyle", "src/kml/engine/merge.cc: MergeElements"]}
{"id": "C29", "title": "Style resolution terminates", "statement": "Resolving a style terminates for every document, including cyclic style maps, following at most a fixed number of style URLs; and with styles that hold nothing unknown, misplaced or repeated it always ends with such a style.", "quantifier": "for every document including cyclic references", "why_tests_cant": "Cycles of any length.", "anchors": ["src/kml/engine/style_merger.cc: StyleMerger::MergeStyleUrl, MergeStyleMap", "src/kml/engine/engine_constants.h: kDefaultMaxNestedStyleUrls"]}
{"id": "C30", "title": "Style URL limit counts nesting", "statement": "References nested no deeper than the limit are all followed. (Violated: the limit is a total budget, so a style map with many matching pairs loses the later ones.)", "quantifier": "for every document whose reference chains are within the limit", "why_tests_cant": "Needs wide, not deep, style maps.", "anchors": ["src/kml/engine/style_merger.cc: StyleMerger::MergeStyleUrl (nesting_depth_)"]}
{"id": "C31", "title": "Merging elements is right-biased", "statement": "Merging a source element into a target gives every field set in the source, keeps target fields the source does not set, at every depth, and merging an element into a copy of itself changes nothing (for elements whose children have distinct types; violated for the text of a Snippet, for several children of one type and for the points of a track).", "quantifier": "for every pair of elements", "why_tests_cant": "All element pairs and nestings.", "anchors": ["src/kml/engine/merge.cc: MergeFields, MergeElements, FieldMerger, ElementMerger"]}
{"id": "C32", "title": "Splitting styles preserves appearance", "statement": "Turning inline styles into shared ones leaves the resolved style of every feature unchanged. Splitting is defined for every document that can be read whose features have styles that can be copied, wherever the features are: inside of the first Document, before it or behind it. (Violated when the inline style has its own id, or when a document style already uses a generated id.)", "quantifier": "for every document", "why_tests_cant": "Id collisions across arbitrary documents.", "anchors": ["src/kml/engine/style_splitter.cc: SplitStyles, StyleSplitter"]}
{"id": "C33", "title": "Inlining styles preserves appearance", "statement": "Replacing style references by inline copies leaves the resolved style of every feature unchanged, and is defined for every document that can be read whose shared styles hold nothing unknown, misplaced or repeated. (Violated for references that precede the shared style.)", "quantifier": "for every document", "why_tests_cant": "Order dependence over arbitrary documents.", "anchors": ["src/kml/engine/style_inliner.cc: InlineStyles, StyleInliner"]}
{"id": "C34", "title": "Object id lookup", "statement": "After parsing, looking up an id returns an element carrying that id; with strict parsing duplicate ids make the parse fail, otherwise the last element in document order is returned.", "quantifier": "for every document", "why_tests_cant": "All id assignments.", "anchors": ["src/kml/engine/object_id_parser_observer.h: ObjectIdParserObserver::AddChild", "src/kml/engine/kml_file.cc: KmlFile::GetObjectById"]}
{"id": "C35", "title": "Clearing ids removes all ids", "statement": "Clearing the ids of a tree leaves no element with an id and changes nothing else. (Violated with duplicate ids, where earlier duplicates keep theirs, and for elements in a wrong place.)", "quantifier": "for every document", "why_tests_cant": "Duplicate ids anywhere.", "anchors": ["src/kml/engine/id_mapper.cc: ClearIds, MapIds"]}
{"id": "C36", "title": "Update delete removes the addressed feature", "statement": "Applying an update with a Delete removes exactly the addressed feature. (Violated with duplicate ids: the first match is removed while the last was addressed, and a later delete can use freed memory.)", "quantifier": "for every document and update", "why_tests_cant": "Histories of updates with duplicate ids.", "anchors": ["src/kml/engine/update_processor.cc: UpdateProcessor::ProcessUpdateDelete, DeleteFeature", "src/kml/dom/container.cc: Container::DeleteFeatureById"]}
{"id": "C37", "title": "Cloning", "statement": "Cloning an element produces an element that serializes identically and shares no mutable node with the original.", "quantifier": "for every element tree", "why_tests_cant": "All trees.", "anchors": ["src/kml/engine/clone.cc: Clone, ElementReplicator"]}
{"id": "C38", "title": "KMZ URL splitting", "statement": "Splitting a URL at the archive gives the archive URL and the path inside; for a URL of the form u.kmz/p with no earlier '.kmz' the parts are u.kmz and p. (Text directly after '.kmz' that is not a slash loses a character.)", "quantifier": "for every URL", "why_tests_cant": "All URLs.", "anchors": ["src/kml/engine/kml_uri.cc: KmzSplit"]}
{"id": "C39", "title": "Href parsing", "statement": "Parsing an href splits it into scheme, network location, path and fragment whose recomposition is the href. (Violated when a scheme is present and the path is followed by a fragment.)", "quantifier": "for every href", "why_tests_cant": "All hrefs.", "anchors": ["src/kml/engine/href.cc: Href::Parse"]}
{"id": "C40", "title": "Bounding box contains what it was expanded with", "statement": "After expanding a bounding box with points or other non-empty boxes it contains all of them, contains nothing smaller would not, and expanding is order independent. (Expanding with an empty box yields the whole world.)", "quantifier": "for every sequence of points and boxes", "why_tests_cant": "All sequences.", "anchors": ["src/kml/engine/bbox.h: Bbox::ExpandLatLon, ExpandFromBbox, Contains, ContainedByBbox"]}
{"id": "C41", "title": "Bounding box alignment", "statement": "Aligning a box to the quadtree returns a quadtree cell that contains the box, no deeper than the requested maximum.", "quantifier": "for every box contained in the start cell and every depth", "why_tests_cant": "All boxes.", "anchors": ["src/kml/engine/bbox.h: Bbox::AlignBbox, ContainedByBox"]}
{"id": "C42", "title": "Entity map is per schema data", "statement": "Each SchemaData's values are labelled by its own Schema. (Violated: field names of an earlier schema leak into a later SchemaData.)", "quantifier": "for every placemark with several SchemaData", "why_tests_cant": "Needs several SchemaData in one feature.", "anchors": ["src/kml/engine/entity_mapper.cc: EntityMapper::GatherSchemaDataFields, PopulateSimpleFieldNameMap"]}
{"id": "C43", "title": "Feature list splitting is a partition", "statement": "Splitting a feature list by a box moves, in order, the first at most N features inside the box to the output and keeps all other features in order.", "quantifier": "for every list, box and N", "why_tests_cant": "All lists.", "anchors": ["src/kml/convenience/feature_list.cc: FeatureList::BboxSplit"]}
{"id": "C44", "title": "Feature list sorting", "statement": "Sorting a feature list by score gives a permutation in descending score order that keeps the order of equal scores.", "quantifier": "for every list and score function", "why_tests_cant": "All lists.", "anchors": ["src/kml/convenience/feature_list.cc: FeatureList::Sort"]}
{"id": "C45", "title": "CSV line numbers", "statement": "Line numbers reported while parsing CSV are the line numbers in the file. (Violated after blank lines.)", "quantifier": "for every CSV text", "why_tests_cant": "Blank lines anywhere.", "anchors": ["src/kml/convenience/csv_parser.cc: CsvParser::ParseCsv, CsvParserHandler::HandleLine"]}
{"id": "C46", "title": "Simplified paths stay close", "statement": "Each vertex dropped while simplifying coordinates lies within the tolerance of a kept vertex. (Violated: distances are measured to the previously visited vertex, so a long dense path collapses to its first point.)", "quantifier": "for every path and tolerance", "why_tests_cant": "Dense long paths.", "anchors": ["src/kml/convenience/convenience.cc: SimplifyCoordinates"]}
{"id": "C47", "title": "GPX points", "statement": "Each track point with coordinates is reported once with its own coordinates and one without is not reported. (Violated: a point lacking coordinates is reported with those of an earlier point.)", "quantifier": "for every GPX event sequence", "why_tests_cant": "Histories of track points.", "anchors": ["src/kml/convenience/gpx_trk_pt_handler.h: GpxTrkPtHandler"]}
{"id": "C48", "title": "Regionation is complete and disjoint", "statement": "Regionating a feature list puts every feature inside the root region in exactly one generated file with at most ten features each and terminates.", "quantifier": "for every list of points, root region and midpoint arithmetic", "why_tests_cant": "Unbounded recursion over arbitrary point sets.", "anchors": ["src/kml/regionator/regionator.cc: Regionator::_Regionate", "src/kml/regionator/feature_list_region_handler.cc: FeatureListRegionHandler::HasData", "src/kml/convenience/feature_list.cc: BboxSplit"]}
{"id": "C49", "title": "Region ids and child regions", "statement": "Quadtree ids of distinct nodes are distinct and their depth is their distance from the root; the four child regions cover their parent and lie inside it. The element of a child region has the box of its quadrant, with the altitudes and the Lod of its parent, and no id; the link to the file of a region and the document of a region hold an equal copy of the region, and the link is fetched when the region is in view.", "quantifier": "for every node of the quadtree", "why_tests_cant": "Unbounded depth.", "anchors": ["src/kml/regionator/regionator_qid.h: Qid::CreateChild, depth", "src/kml/regionator/regionator_util.cc: CreateChildRegion"]}
{"id": "C50", "title": "Region outline is closed", "statement": "The line string drawn around a box is closed. (Violated: the last point repeats the south-west corner.)", "quantifier": "for every box", "why_tests_cant": "Symbolic over all boxes.", "anchors": ["src/kml/regionator/regionator_util.cc: CreateLineStringBox"]}
{"id": "C51", "title": "XSD type hierarchy", "statement": "Asking for the type hierarchy of an element terminates and lists the chain of base types. (Does not terminate for cyclic extension bases.)", "quantifier": "for every schema", "why_tests_cant": "All schemas, cycles.", "anchors": ["src/kml/xsd/xsd_file.cc: XsdFile::GetTypeHierarchy, SearchTypeHierarchy"]}
{"id": "C52", "title": "Boolean and decimal text acceptance", "statement": "Boolean text reads as true exactly when, after leading white space, it starts with 'true' or '1', and written booleans read back; decimal text is accepted exactly when it starts with an optional minus, an optional point and a digit.", "quantifier": "for every text", "why_tests_cant": "All texts.", "anchors": ["src/kml/base/string_util.cc: FromString(bool), ToString(bool), IsDecimalDoubleString, StringToDouble"]}
{"id": "C53", "title": "Unknown attributes and namespace declarations survive", "statement": "Attributes that an element type does not know, and its xmlns declarations, are written back unchanged with the element. (Violated for the reserved name xmlns:xmlns and when unknown attributes are added in a second batch.)", "quantifier": "for every attribute set", "why_tests_cant": "All sets of names and values, including prefix edge cases.", "anchors": ["src/kml/dom/element.cc: Element::AddUnknownAttributes, SerializeAttributes", "src/kml/base/attributes.cc: Attributes::SplitByPrefix"]}
{"id": "C54", "title": "Archive table of contents", "statement": "Searching an archive by suffix returns the first listed entry with that suffix or reports that there is none; an entry is returned exactly if it is listed, present, non-empty and within the size limit; data counts as an archive exactly if it starts with the zip signature.", "quantifier": "for every table of contents, suffix, name, size limit and data", "why_tests_cant": "All tables and names.", "anchors": ["src/kml/base/zip_file.cc: ZipFile::FindFirstOf, IsInToc, GetEntry, IsZipData"]}
{"id": "C55", "title": "Type names for debugging", "statement": "The debug string of an element type is the name of that type. (Violated for every type from gx:MultiTrack on: another type's name is returned, or memory past the table is read.)", "quantifier": "for every element type", "why_tests_cant": "Compares two hand-maintained tables entry by entry.", "anchors": ["src/kml/dom/kml22.h: kmlDomTypeToString, KmlDomType"]}
{"id": "C56", "title": "Text content survives pretty printing", "statement": "The text of an element that is written as element content (Snippet, linkSnippet, SimpleData) is the same after the element is pretty-printed and parsed again. (Violated for every text: white space is added.)", "quantifier": "all texts of legal characters", "why_tests_cant": "Tests compare serialized strings or parse fixed strings; none parses pretty output of these elements back and compares the text.", "anchors": ["src/kml/dom/xml_serializer.h: XmlSerializer::SaveContent, EmitStart, End", "src/kml/dom/snippet.cc: SnippetCommon::Serialize, AddElement", "src/kml/dom/extendeddata.cc: SimpleData::Serialize"]}
{"id": "C57", "title": "Parsing never crashes", "statement": "Parsing any document ends normally, with a root element or without; no empty stack is read and no null element is dereferenced. (Violated for documents with a KML 2.1 style Schema whose name is that of another element, or with markup inside its fields; and for ParseAtom with an unknown root or a document that is too deep, where a parser that was never set is stopped.)", "quantifier": "for every well-formed document of fewer than 2147483000 elements and every set of observers", "why_tests_cant": "Needs all documents, including malformed element nesting and arbitrary observer decisions.", "anchors": ["src/kml/dom/kml_handler.cc: StartElement, EndElement, CharData, HandleOldSchemaEndElement, HandleOldSchemaParentEndElement"]}
{"id": "C58", "title": "Attributes of simple elements", "statement": "Attributes written on simple elements (name, visibility, ...) have no effect on the parse result: removing them all from a document gives the same tree.", "quantifier": "for every document", "why_tests_cant": "All documents and all simple elements of the schema.", "anchors": ["src/kml/dom/kml_handler.cc: StartElement"]}
{"id": "C59", "title": "gx:coord and gx:angles survive serialize and parse", "statement": "The text written for a gx:coord or gx:angles value is parsed back to the same three numbers. (Violated for hand-written text with two consecutive spaces or none at all, where an uninitialized number is read.)", "quantifier": "for every three number texts", "why_tests_cant": "Unbounded numbers; uninitialized reads usually go unnoticed by tests.", "anchors": ["src/kml/dom/geometry.cc: GxTrack::Parse", "src/kml/dom/serializer.cc: SaveSimpleVec3", "src/kml/base/string_util.cc: FromString"]}
{"id": "C60", "title": "Documents survive reading and writing", "statement": "Reading a KML text, writing the elements pretty printed (or raw) and reading the result gives the same elements, so that writing twice gives the same text. Known exceptions are excluded by explicit conditions: markup in simple elements, own text of Snippet and SimpleData under indentation, CDATA marks in links, locality names, attribute values that need escaping.", "quantifier": "for every well-formed document of at most 100 levels and every whitespace newline and indentation", "why_tests_cant": "All documents over about two hundred element types.", "anchors": ["src/kml/dom/parser.cc: Parser::Parse", "src/kml/dom/xml_serializer.cc: SerializePretty, SerializeRaw", "src/kml/dom/element.cc: Element::AddElement, SerializeUnknown"]}
{"id": "C61", "title": "No value is dropped when writing", "statement": "Every child value a class accepts is written. (Violated: the LocalityName of xal:Locality is read but never written; it is the only one.)", "quantifier": "for every class and every child it accepts", "why_tests_cant": "Each class would need a test per child.", "anchors": ["src/kml/dom/xal.cc: XalLocality::Serialize"]}
{"id": "C62", "title": "Unknown enumeration values survive", "statement": "An enumeration value the schema does not know is kept when the document is written. (Violated: it is dropped, along with a value given before.)", "quantifier": "for every enumeration element and every text", "why_tests_cant": "All texts for all enumerations.", "anchors": ["src/kml/dom/element.cc: Element::SetEnum", "src/kml/dom/element.h: Field::SetEnum"]}
{"id": "C63", "title": "Markup and attributes inside simple elements survive", "statement": "Foreign markup and attributes in simple elements and coordinates are kept as they are in complex elements. (Violated: they are lost.)", "quantifier": "for every document", "why_tests_cant": "All placements of foreign markup.", "anchors": ["src/kml/dom/element.cc: Field::Serialize", "src/kml/dom/kml_handler.cc: KmlHandler::StartElement, EndElement"]}
{"id": "C64", "title": "Links are read as written", "statement": "The text of an href or targetHref is kept exactly, and one literal pair of CDATA marks around it is removed. (Violated for nested marks: every reading removes another pair.)", "quantifier": "for every link text", "why_tests_cant": "All texts.", "anchors": ["src/kml/dom/link.cc: BasicLink::AddElement"]}
{"id": "C65", "title": "Repeated single-valued children", "statement": "If a single-valued child is given more than once the last one counts. (Violated for blank numbers: the value before is kept.)", "quantifier": "for every class, child and values", "why_tests_cant": "All classes and orders.", "anchors": ["src/kml/dom/element.h: SetComplexChild", "src/kml/dom/element.cc: Field::SetDouble, SetInt"]}
{"id": "C66", "title": "Misplaced elements are kept", "statement": "A known element in a parent that does not accept it is kept and written after the parent's own children. (Violated for children of Snippet, linkSnippet, coordinates.)", "quantifier": "for every parent and child", "why_tests_cant": "All pairs of about two hundred types.", "anchors": ["src/kml/dom/element.cc: Element::AddElement, SerializeUnknown", "src/kml/dom/snippet.cc: SnippetCommon::AddElement"]}
{"id": "C67", "title": "Archive URLs are fetched whole", "statement": "The URL fetched for an archive is the URL of the link without its fragment. (Violated: query and user are dropped, so links to an archive that differ only in their query are the same archive to the cache, and a URL without a host loses its scheme.)", "quantifier": "for every URL and every resolver", "why_tests_cant": "needs all URLs; tests use a few without queries", "anchors": ["src/kml/engine/kml_uri.cc: GetFetchableUri, KmlUri::CreateRelative"]}
{"id": "C68", "title": "Fetching through archives terminates", "statement": "A file is looked for in the archive first and beside the archive otherwise, and asking for a file that exists in neither fails. (Violated: asking for a missing file of an existing archive by its absolute URL recurses without end.)", "quantifier": "for every archive, URL and network", "why_tests_cant": "the recursion depends on all resolvers, archives and networks", "anchors": ["src/kml/engine/kmz_cache.cc: KmzCache::DoFetchAndReturnUrl", "src/kml/engine/kml_cache.cc: KmlCache::FetchKmlAbsolute"]}
{"id": "C69", "title": "Archives give back what was put in", "statement": "A file added to an archive under an accepted new name is read back unchanged and the other files are unaffected; names that leave the archive's directory are refused. (Violated: empty files cannot be read, a second file of a name is never seen, and the name test both lets parent steps through and refuses harmless names.)", "quantifier": "for every archive, name and contents", "why_tests_cant": "needs all names and contents", "anchors": ["src/kml/base/zip_file.cc: ZipFile::GetEntry, ZipFile::AddEntry", "src/kml/engine/kmz_file.cc: KmzFile::ReadFile, KmzFile::AddFile"]}
{"id": "C70", "title": "Packing a document with its files", "statement": "A packed archive holds the document first and each linked readable file once, under its normalized name, and the document read from it is the document packed. (Violated for a linked file named doc.kml.)", "quantifier": "for every document, list of links and file system", "why_tests_cant": "needs all lists of links", "anchors": ["src/kml/engine/kmz_file.cc: KmzFile::CreateFromElement, KmzFile::AddFileList, KmzFile::ReadKml"]}
{"id": "C71", "title": "Extended data values", "statement": "A value added to a feature's extended data under a new name is read back and leaves other values alone; setting a value replaces only the value of that name. (Violated: setting erases every other value, and adding under a name already used keeps returning the old value.)", "quantifier": "for every feature, name and value", "why_tests_cant": "Tests set one value; that other values survive is a statement about all existing data.", "anchors": ["src/kml/convenience/convenience.cc: AddExtendedDataValue, GetExtendedDataValue, SetExtendedDataValue"]}
{"id": "C72", "title": "XSD declarations are all read", "statement": "Reading a schema document finds exactly the global elements and the types it declares, each type with the local elements and base given inside it, the last declaration of a name winning. (Violated: an anonymous type, a type nested in another type, or an element at the root makes the reader dereference a null pointer or read an empty stack.)", "quantifier": "for every schema document, whatever its attributes and nesting", "why_tests_cant": "Tests use well-behaved schema files; the combinations of nesting, names and attributes are unbounded.", "anchors": ["src/kml/xsd/xsd_file.cc: XsdFile::CreateFromParse", "src/kml/xsd/xsd_handler.cc: XsdHandler::StartElement, XsdHandler::EndElement"]}
{"id": "C73", "title": "XSD element ids are three ordered ranges", "statement": "The element id vector lists first the abstract, then the complex, then the simple elements, each group in name order and no name twice, and the two reported offsets are where the groups begin. (Not every element gets an id: a concrete element whose type is not found is left out.)", "quantifier": "for every document that can be read", "why_tests_cant": "The grouping depends on the lookup of every element's type; tests cover a few files.", "anchors": ["src/kml/xsd/xsd_file.cc: XsdFile::GenerateElementIdVector, XsdFile::GetAbstractElements, XsdFile::GetComplexElements, XsdFile::GetSimpleElements"]}
{"id": "C74", "title": "Circles are evenly spread", "statement": "A circle made of n segments has n vertices spread evenly around the centre. (Violated: vertex i is placed at i degrees, so fewer than 360 segments give an arc and more go around again.)", "quantifier": "for every centre, radius and number of segments", "why_tests_cant": "A unit test checks the first few vertices; the spacing is a statement about all indices and all n.", "anchors": ["src/kml/convenience/convenience.cc: CreateCoordinatesCircle"]}
{"id": "C75", "title": "Pipe-separated placemark files", "statement": "Reading a file of |-separated lines gives one placemark per line of at least five fields, in order, with score, latitude, longitude, name, description and style taken from the fields in that order. (Violated when the file has an empty line - the rest is dropped - or a coordinate is not a number - it becomes zero.)", "quantifier": "for every list of rows of fields without | and line ends", "why_tests_cant": "The rows, the field contents and the number of fields are unbounded.", "anchors": ["src/kml/convenience/csv_file.cc: CsvFile::ParseCsvLine, CsvFile::ParseCsvFile"]}
{"id": "C76", "title": "Entities of a feature", "statement": "The entity map of a feature holds its id, targetId, name, address, Snippet and description, each Data under its name (and name/displayName), each SimpleData under its schema's name and its own, and nothing else; of several entries of one name the last one read counts. (Violated for the feature's own name when a Data is called name.)", "quantifier": "for every feature, extended data and schema lookup", "why_tests_cant": "The keys and values are arbitrary strings in arbitrarily many data elements; collisions between them are what matters.", "anchors": ["src/kml/engine/entity_mapper.cc: EntityMapper::GetEntityFields", "src/kml/engine/entity_mapper.h: EntityMapper"]}
{"id": "C77", "title": "Balloon text", "statement": "The balloon of a feature is its BalloonStyle text with every entity reference replaced by the entity's value at once, or by default the name as a heading, the description with its entities replaced, and a table with a row for every labelled value. (Violated: table cells are not closed.)", "quantifier": "for every feature, template made of literal text and references, and extended data", "why_tests_cant": "Templates, entity values and data are unbounded; replacement in one template can interfere with other entries.", "anchors": ["src/kml/engine/feature_balloon.cc: CreateBalloonText", "src/kml/engine/entity_mapper.cc: CreateExpandedEntities"]}
{"id": "C78", "title": "Shared styles of a file", "statement": "A parsed file gives for a style name the last Style or StyleMap placed directly in a Document with that id, and nothing exactly when there is none. (Violated for the empty name: a style without an id is found under it.)", "quantifier": "for every regular document and every name", "why_tests_cant": "Which of several equal ids wins and which nesting positions count depends on the whole document.", "anchors": ["src/kml/engine/shared_style_parser_observer.h: SharedStyleParserObserver::AddChild", "src/kml/engine/kml_file.cc: KmlFile::GetSharedStyleById"]}
{"id": "C79", "title": "Links of a document", "statement": "The links reported for a document are exactly the contents of its href and styleUrl elements, targetHref in an Alias and the schemaUrl of SchemaData, and the relative links are those with a path and without scheme and host; the elements that can have a link are listed in document order.", "quantifier": "for every regular document", "why_tests_cant": "Documents nest links in arbitrarily many positions.", "anchors": ["src/kml/engine/get_links.h: GetLinksParserObserver", "src/kml/engine/get_links.cc: GetLinks, GetRelativeLinks", "src/kml/engine/get_link_parents.cc: IsLinkParent"]}
{"id": "C80", "title": "Renaming ids", "statement": "Renaming the ids of a mapped tree gives every mapped element the new name of its id or takes the id away when there is none, changes nothing else, returns how many ids were taken away, and reports under each new name an element that got it.", "quantifier": "for every element tree and every table of names", "why_tests_cant": "The tree, its ids and the table are unbounded, and several ids may be given the same new name.", "anchors": ["src/kml/engine/id_mapper.cc: RemapIds, MapIds"]}
{"id": "C81", "title": "Update change merges into the addressed object", "statement": "A Change gives the object with the target id every value, attribute and coordinate list the Change carries, leaves its other values, leaves no targetId on it, and does not touch any other object; a Change whose target is unknown (or has no new name in the id map) does nothing.", "quantifier": "for every document, every id map and every object of a Change which can be merged", "why_tests_cant": "Documents, objects and id maps are unbounded.", "anchors": ["src/kml/engine/update_processor.cc: UpdateProcessor::ProcessUpdateChange, GetTargetId", "src/kml/engine/merge.cc: MergeElements"]}
{"id": "C82", "title": "Update create appends copies to the addressed container", "statement": "A Create appends copies of its features, in order, to the features of the container with the target id and leaves everything else as it was. (Features made this way cannot be addressed by a later operation: they are not known by their id.)", "quantifier": "for every document, every id map and every container of a Create", "why_tests_cant": "Documents and Creates are unbounded; histories of operations.", "anchors": ["src/kml/engine/update_processor.cc: UpdateProcessor::ProcessUpdateCreate, CopyFeatures", "src/kml/engine/clone.cc: Clone"]}
{"id": "C83", "title": "Styles of other files", "statement": "Resolving a style map of another file gives the same style as resolving it inside of that file: references in its pairs refer to that file. (Violated: a reference without a path is looked up in the file the resolution started from.) A Style of another file, and a style map of which every reference means the same in both files, resolves as in its own file. (Also violated: relative links in such a style, as of its icon, are copied as they are and lead elsewhere.)", "quantifier": "for every pair of files and every style map", "why_tests_cant": "Needs files which refer to each other; the tests use pairs with inline styles or styles only.", "anchors": ["src/kml/engine/style_merger.cc: StyleMerger::MergeStyleUrl", "src/kml/engine/style_resolver.cc: StyleResolver::CreateResolvedStyle"]}
{"id": "C84", "title": "A written file declares the namespaces of its elements", "statement": "When a KML file is written, the root declares the namespace of every element in it: the prefix of every complex element and the KML namespace as the default; nothing else of the root or its contents changes, unused namespaces are not declared, and writing twice gives the same text. (Violated: a prefix used by simple elements or misplaced elements only is not declared; a file of another KML namespace gets the 2.2 namespace; a file without an element is reported as written.)", "quantifier": "for every file that was read, whatever elements it has and whatever namespaces its root declares", "why_tests_cant": "Documents combine elements of four namespaces at any depth; tests look at a few roots.", "anchors": ["src/kml/engine/find_xml_namespaces.cc: FindXmlNamespaces, FindAndInsertXmlNamespaces", "src/kml/engine/kml_file.cc: KmlFile::SerializeToString, KmlFile::SerializeToOstream", "src/kml/base/xml_namespaces.cc: FindXmlNamespaceAndPrefix", "src/kml/dom/element.cc: Element::MergeXmlns"]}
{"id": "C85", "title": "Checking the links of an archive", "statement": "KmzCheckLinks reports exactly the links of the archive's document that have neither a scheme nor a host and whose path is not a readable file of the archive, in document order; it returns true exactly when there is no such link, and false without a report when there is no document or it does not parse. An archive packed with normalized links to readable files passes the check. (References within the document such as #id are reported as missing; a file packed under its normalized name is reported missing under the name used in the document.)", "quantifier": "for all archives, documents, size limits, normalizations and file contents", "why_tests_cant": "The check is a statement about every link in a document against every entry of an archive; tests use a few prepared archives.", "anchors": ["src/kml/convenience/kmz_check_links.cc: KmzCheckLinks", "src/kml/engine/href.h: IsRelative", "src/kml/engine/get_links.cc: GetLinks", "src/kml/engine/kmz_file.cc: ReadKml, ReadFile, CreateFromElement"]}
{"id": "C86", "title": "Namespace aware parsing does not depend on prefixes", "statement": "ParseAtom gives the same elements for all documents that mean the same, whatever prefixes and declarations they use: elements of the Atom namespace become atom elements, elements of the KML namespace KML elements, elements of any other namespace stay unknown; a document with an undeclared prefix is rejected. ParseNS gives every element by its local name. A table of namespaces made from attributes knows exactly what they declare. (Violated: ParseAtom has undefined behaviour, stopping an uninitialised parser, for documents whose root is neither a KML nor an Atom element or that are more than 100 elements deep; ParseNS takes elements of any namespace for KML and does not know the gx and atom elements that Parse knows; Parse goes by the literal prefix; unknown elements kept by ParseAtom are written as text that is not XML.)", "quantifier": "for all texts and documents, tables of namespaces and observers", "why_tests_cant": "Prefixes and declarations can be placed in a document in infinitely many equivalent ways.", "anchors": ["src/kml/dom/parser.cc: Parser::ParseNS, Parser::ParseAtom", "src/kml/base/expat_handler_ns.cc: ExpatHandlerNs::TranslatePrefixedName", "src/kml/base/xmlns.h: Xmlns", "src/kml/dom/kml_handler_ns.cc: KmlHandlerNS::StartElement"]}
{"id": "C87", "title": "Atom feeds and the features in them", "statement": "The URL of a relation of an Atom element (FindRelUrl) is the href of the first link which has an href and whose rel ends with the given text, and there is none if no link qualifies; likewise FindLink with a mime type, FindCategory with a scheme, FindEntryByTitle with a title. GetNextFeed gives exactly the feed parsed from the contents of the URL of the relation next. The entry made for a feature has its name as title, its description as summary and gives the feature back. GetFeedFeatures appends to a folder or document the features of the entries in order, each with a link to the URL of the relation self of its entry, and changes nothing else of the container. The resource id of an entry is the text of its first unknown element named resourceId.", "quantifier": "for every feed, entry, container, relation, scheme, title, mime type and every answer of the network", "why_tests_cant": "The number of links, entries, attributes and texts is unbounded; tests check a few feeds, none with features used twice or with resource ids carrying attributes.", "anchors": ["src/kml/convenience/atom_util.cc:CreateBasicEntry", "src/kml/convenience/atom_util.cc:CreateEntryForFeature", "src/kml/convenience/atom_util.cc:FindRelUrl", "src/kml/convenience/atom_util.cc:FindLink", "src/kml/convenience/atom_util.cc:FindCategory", "src/kml/convenience/atom_util.cc:GetEntryFeature", "src/kml/convenience/atom_util.cc:CloneEntryFeature", "src/kml/convenience/atom_util.cc:GetFeedFeatures", "src/kml/convenience/atom_util.cc:FindEntryByTitle", "src/kml/convenience/atom_util.cc:GetGdResourceId", "src/kml/convenience/atom_util.cc:GetNextFeed"]}
{"id": "C88", "title": "Parsing from a stream", "statement": "Reading a document from a stream (KmlStream) gives the same root as parsing the same bytes with Parse, however the bytes are cut into blocks, however the XML parser cuts character data into pieces and whichever elements are written as empty-element tags; a stream whose contents are not a well-formed document gives nothing. Parse gives a root and no error, or no root and an error. (Violated: a stream that is not good gives a result without root; a read error gives the part read so far as if it was a document; the empty text gives no root and no error.)", "quantifier": "for every document, every cutting into blocks and pieces, every conforming XML parser and every set of observers", "why_tests_cant": "The ways to cut a document are exponentially many and the documents are unbounded; tests use documents shorter than a block, except for one.", "anchors": ["src/kml/engine/kml_stream.cc:KmlStream::ParseFromIstream", "src/kml/base/expat_parser.cc:ExpatParser::ParseInternalBuffer", "src/kml/base/expat_parser.cc:ExpatParser::_ParseString", "src/kml/dom/kml_handler.cc:KmlHandler::CharData", "src/kml/dom/kml_handler.cc:KmlHandler::PopRoot"]}
{"id": "C89", "title": "Instances of old-style schemas", "statement": "With the observer for old-style schemas, an unknown element of a document or folder (other than the root) named like a schema, without attributes, without escaped characters and without an element of the same name in it, is added to the features as the Placemark parsed from the same contents; elements of other names and other parts of the container are left alone. (Violated otherwise: with attributes or escaped characters nothing is added, an element of the same name inside cuts the contents, and the fields do not become extended data as described.)", "quantifier": "for every element name, list of schema names, contents and container", "why_tests_cant": "The conversion searches for tags in texts; the contents are arbitrary and unbounded, tests use a single one.", "anchors": ["src/kml/engine/parse_old_schema.cc:ConvertOldSchema", "src/kml/engine/parse_old_schema.cc:ParseOldSchema", "src/kml/engine/old_schema_parser_observer.h:OldSchemaParserObserver::AddChild"]}
{"id": "C90", "title": "Headers, requests and login of the HTTP client", "statement": "Looking up a header gives the value of the first header of exactly this name; adding a header makes it visible if there was none of that name and changes no other. The text of a request is the line with method and URI followed by one line per header, those of the client before those of the request, and exists exactly for the methods of RFC 2616. After a successful login the token is the text after the first Auth= without the final newline, and it is sent with every later request; otherwise nothing changes; credentials without ampersand give different requests. (Violated: no method is undefined behaviour; further lines become part of the token; unescaped ampersands confuse email and password; a second login leaves the old token first; names of headers are compared with case.)", "quantifier": "for every list of headers, method, URI, credentials and response of the server", "why_tests_cant": "Responses and headers are arbitrary texts; tests use one canned response.", "anchors": ["src/kml/convenience/http_client.cc:HttpClient::Login", "src/kml/convenience/http_client.cc:HttpClient::SendRequest", "src/kml/convenience/http_client.cc:HttpClient::FindHeader", "src/kml/convenience/http_client.cc:HttpClient::PushHeader", "src/kml/convenience/http_client.cc:HttpClient::AppendHeaders", "src/kml/convenience/http_client.cc:HttpMethod::GetMethodString"]}
{"id": "C91", "title": "Finding elements by type", "statement": "Looking for the elements of a type below an element finds exactly the complex elements of this type, or of a type derived from it, that are written for the element, in the order of their tags; asking for the children, or for all descendants, gives exactly those written as children or descendants. (Violated: an element its parent does not take as child is written but not found, while what is inside of it is found and counts as a child of the parent; the element the search starts from is not found.)", "quantifier": "for every element tree and every type", "why_tests_cant": "Trees are of any depth and the type hierarchy has many abstract types; tests look for Placemarks in one file.", "anchors": ["src/kml/engine/find.cc:GetElementsById", "src/kml/engine/find.cc:GetChildElements", "src/kml/engine/find.cc:ElementTypeFinder::SaveElement", "src/kml/engine/find.cc:AllElementFinder::SaveElement", "src/kml/dom/element.cc:Element::SerializeUnknown"]}
{"id": "C92", "title": "Visiting the feature hierarchy", "statement": "Visiting the feature hierarchy calls the visitor with each feature reached through the feature lists of Folders and Documents exactly once, parents first and siblings in order, and with nothing else. The root feature of a file is the feature of its kml element if it has one, else the root itself if it is a feature, else there is none. (Features inside of an update of a tour are not visited.)", "quantifier": "for every feature tree", "why_tests_cant": "Nesting depth and number of features are unbounded; tests visit one small file.", "anchors": ["src/kml/engine/feature_visitor.cc:VisitFeatureHierarchy", "src/kml/engine/feature_visitor.cc:GetRootFeature"]}
{"id": "C93", "title": "Google Maps data: features of a map and posted features", "statement": "Getting the features of a map appends a copy of the feature of each entry that has one to the container, in order, and gives their number; the document of a map given in several feeds linked by next has exactly the features of all of them. Posting a feature is one POST of an Atom document with an entry titled like the feature that contains it; posting the placemarks of a feature does so for each placemark with a geometry below it in document order and gives the number accepted. The URI of the search feed is that of the feature feed up to the last slash with snippet appended. (Violated: a next link to the feed itself makes the loop endless; a feature in which an id occurs twice is undefined behaviour; a root placemark without geometry is posted; a slash in the query confuses the search URI; parameters are appended without separators.)", "quantifier": "for every feed, chain of feeds, feature tree, URI and answer of the server", "why_tests_cant": "Feeds and trees are arbitrary and the loop over feeds depends on the server; tests use fixed responses.", "anchors": ["src/kml/convenience/google_maps_data.cc:GoogleMapsData::GetMapKml", "src/kml/convenience/google_maps_data.cc:GoogleMapsData::CreateDocumentOfMapFeatures", "src/kml/convenience/google_maps_data.cc:GoogleMapsData::CreateMap", "src/kml/convenience/google_maps_data.cc:GoogleMapsData::AddFeature", "src/kml/convenience/google_maps_data.cc:GoogleMapsData::PostPlacemarks", "src/kml/convenience/google_maps_data.cc:GoogleMapsData::GetSearchFeedUri", "src/kml/convenience/google_maps_data.cc:GoogleMapsData::AppendBoxParameter", "src/kml/convenience/google_maps_data.cc:GoogleMapsData::GetKmlUri", "src/kml/convenience/google_spreadsheets.cc:GoogleSpreadsheets::DownloadSpreadsheet"]}
{"id": "C94", "title": "Values an element keeps of its simple children", "statement": "Of the text of a simple child an element keeps and writes again: the text itself for text children; 1 or 0 for booleans, 1 exactly if the text begins with true or 1 after white space; the canonical colour text; the printed number at the start of the text, or the value before for blank text; an enumeration value exactly if it is in the schema; of the states of a list icon exactly the valid words. (Violated: states separated by white space other than single spaces are all lost; an address that begins with CDATA marks loses its last three characters whatever they are.)", "quantifier": "for every parent, simple child type and text", "why_tests_cant": "Values are arbitrary texts; tests try the well-formed ones.", "anchors": ["src/kml/dom/element.cc:Field::SetBool", "src/kml/dom/element.cc:Field::SetDouble", "src/kml/dom/element.cc:Field::SetEnum", "src/kml/dom/element.cc:Field::SetString", "src/kml/dom/liststyle.cc:ItemIcon::AddElement", "src/kml/dom/link.cc:BasicLink::AddElement", "src/kml/base/color32.h:Color32"]}
{"id": "C95", "title": "Collecting the features while parsing", "statement": "Parsing with the feature list saver lists every feature of the text which is neither a Document nor a Folder, once each, in the order in which the features end, and gives the document without these features, without Update elements and, if a style map was given, without the named styles of its Documents. A listed feature is complete unless it has such parts of its own. The style map has for an id the last style of that id directly in a Document. With a base, styleUrls into the same file get the base in front, other styleUrls and everything else stay. Features inside an Update are no features of the document, a text that is one feature lists it, and styles with names of one character are rebased as well (false of the code).", "quantifier": "for every document without old-style Schema and of at most 100 levels, every base and with or without a style map", "why_tests_cant": "Documents are arbitrary trees; tests use two small ones.", "anchors": ["src/kml/convenience/kml_feature_list_saver.h:KmlFeatureListSaver::EndElement", "src/kml/convenience/kml_feature_list_saver.h:KmlFeatureListSaver::StartElement", "src/kml/dom/parser_observer.h:ParserObserver", "src/kml/dom/kml_handler.cc:KmlHandler::CallEndElementObservers"]}
{"id": "C96", "title": "Counting the elements of a document", "statement": "The element counter has for every element type how many elements of that type the parsed document has, and no entry for other types. Elements inside a description or foreign markup count as well (false of the code).", "quantifier": "for every document without old-style Schema and of at most 100 levels, and every type", "why_tests_cant": "Documents are arbitrary trees; tests count one file.", "anchors": ["src/kml/convenience/element_counter.h:ElementCounter::NewElement"]}
{"id": "C97", "title": "Schemas of a document by name", "statement": "The schema map has for a name the last Schema of this name that stands directly in a Document, wherever that Document is, and no entry exactly when there is none.", "quantifier": "for every document without old-style Schema and of at most 100 levels, and every name", "why_tests_cant": "Documents are arbitrary trees; tests use one or two schemas.", "anchors": ["src/kml/engine/schema_parser_observer.h:SchemaParserObserver::AddChild"]}
{"id": "C98", "title": "Data fetched through the cache is the data itself", "statement": "Whatever KML files and data were fetched through a KmlCache before, fetching data relative to a base URL (FetchDataRelative), or the icon of an overlay (FetchIcon), gives what fetching it without any cache gives; evictions, archives in the cache and failed fetches before make no difference. The icon of an overlay in a file on the web is what is at the URL that RFC 3986 gives for its href; in a file in an archive it is the file of that archive at the path meant, and in an archive made by CreateFromElement it is the file that was on the disk.", "quantifier": "for every network (function from URLs to content), every URI resolution, every cache size, every sequence of earlier uses of the cache, every base and target", "why_tests_cant": "Tests make one or two fetches with a fresh cache; the claim is about all histories of the three caches and their evictions.", "anchors": ["src/kml/engine/kml_cache.cc: KmlCache::FetchDataRelative", "src/kml/engine/kmz_cache.cc: KmzCache::DoFetchAndReturnUrl, KmzCache::FetchFromCache", "src/kml/engine/link_util.cc: FetchIcon", "src/kml/base/net_cache.h: NetCache::Fetch"]}
{"id": "C99", "title": "KML files fetched through the cache", "statement": "A file returned by FetchKmlRelative, FetchKmlAbsolute or FetchLink is made of content which a fetch without caches gives, with the URL that fetch reports. If there is content at the place a reference names, the file is made of that content whatever was fetched before. A file which has the URL asked for (not that of an archive) is returned itself when asked for again. Refuted for URLs of archives: these are parsed again each time and give another file. Refuted: an archive linked from a document in another archive gets the URL of the archive, not that of its document, so its references resolve elsewhere. A link up and down directories gives the file made of what is at the URL that RFC 3986 says, a link to an archive the file made of its document, a link into an archive the file made of that entry.", "quantifier": "for every network, URI resolution, parser of KML files, cache size, sequence of earlier uses, base and target", "why_tests_cant": "The content of the cache depends on the whole history of fetches and on which URL each was reported under; tests try a few histories.", "anchors": ["src/kml/engine/kml_cache.cc: KmlCache::FetchKmlRelative, KmlCache::FetchKmlAbsolute", "src/kml/engine/kmz_cache.cc: KmzCache::DoFetchAndReturnUrl", "src/kml/engine/kml_uri_internal.h: KmlUri::set_path_in_kmz", "src/kml/engine/link_util.cc: FetchLink"]}
{"id": "C100", "title": "Archives are read as the ZIP format says", "statement": "The table of contents of ZIP data are the names of the entries of its central directory in order, also with bytes before the archive, extra fields, comments and data descriptors; reading a listed name gives the uncompressed data of the first entry of that name, if it is not empty and not above the limit, where compressed data means what RFC 1951 says. Data that does not match its checksum is not returned (false of the code). Entries with long names (256 to 1023 bytes) can be read like others, and archive comments of any length the format allows make no difference (false of the code). An archive without comment of less than 19280 entries and 88821760 bytes is always read; one whose directory begins at byte 101010256 is not (false of the code).", "quantifier": "for every list of entries with names below 256 bytes without NUL, stored or deflated, every placement of local headers, every archive below 2 GB with a comment of up to 65513 bytes that does not itself contain an end record, every name asked for and every size limit", "why_tests_cant": "Archives are unbounded byte strings; tests open a handful of files made by one or two zip programs.", "anchors": ["src/kml/base/zip_file.cc: ZipFile::OpenFromString, ZipFile::GetToc, ZipFile::GetEntry", "src/kml/base/contrib/minizip/unzip.c: libkml_unzAttach, libkml_unzGoToNextFile, libkml_unzLocateFile, libkml_unzOpenCurrentFile, libkml_unzReadCurrentFile", "src/kml/base/contrib/minizip/iomem_simple.c: mem_read, fseek_calc"]}
{"id": "C101", "title": "Damaged archives do no harm", "statement": "Opening any bytes as an archive and asking it for any file ends, never reads outside of the bytes or of the buffers used, lists no more names than directory items fit into the data, and returns only non-empty data within the size limit. (False of the code for a directory item with a name of 1024 bytes or more: the name is taken from a full buffer without a terminating NUL.)", "quantifier": "for every byte string, every name and size limit, and every behaviour of the decompressor that makes progress on success", "why_tests_cant": "The claim is about all malformed inputs; tests have two damaged archives.", "anchors": ["src/kml/base/zip_file.cc: ZipFile::ZipFile, ZipFile::GetEntry", "src/kml/base/contrib/minizip/unzip.c: unzlocal_SearchCentralDir, unzlocal_GetCurrentFileInfoInternal, unzlocal_CheckCurrentFileCoherencyHeader, libkml_unzReadCurrentFile", "src/kml/base/contrib/minizip/iomem_simple.c: mem_read"]}
{"id": "C102", "title": "The operations of an update act in turn", "statement": "An update with any number of Change, Create and Delete operations behaves as if each operation looked up its targets in the document as the operations before it left it: each acts on the object which has the target id now, an operation whose target was removed or never was does nothing, and nothing undefined happens. (Violated where ids change: an object given a new id by a Change is still reached by the old one, and Delete reaches it by neither; what a Create made cannot be reached at all.)", "quantifier": "for every document with distinct ids, every id map and every update whose changes bring no ids and whose new features have new ids", "why_tests_cant": "Sequences of operations are unbounded, and what an operation does depends on the history of what was taken out, moved and made before it.", "anchors": ["src/kml/engine/update_processor.cc: UpdateProcessor::ProcessUpdate, ProcessUpdateChange, ProcessUpdateCreate, ProcessUpdateDelete", "src/kml/engine/update.cc: ProcessUpdate", "src/kml/engine/kml_file.cc: KmlFile::GetObjectById"]}
{"id": "C103", "title": "Requests of the Google services carry the right version, scope and headers", "statement": "Whatever a caller asks GoogleDocList, GooglePicasaWeb, GoogleSpreadsheets or GoogleMapsData for, in whatever order and with logins in between, each request that leaves the HTTP client has the headers the client had when it was handed over, one GData-Version header with the version of that service, and an address inside the scope of the service (from the environment if the variable is set, else the default of the service); uploads carry the data given, unchanged, with the media type given; what GetMetaFeed returns is the parsed answer exactly if it is a feed. Not so, with witnesses: a client that was used for another service sends two versions; a scope variable set to the empty text leaves an address without host; keys and formats are not escaped in the download address.", "quantifier": "all services, environments, clients, sequences of operations, answers of the server, keys and formats", "why_tests_cant": "the tests run single operations against a client that records one request; sessions, environments and texts are unbounded", "anchors": ["src/kml/convenience/google_doc_list.cc: GoogleDocList::Create, GetMetaFeedXml, GetMetaFeed, UploadSpreadsheet", "src/kml/convenience/google_picasa_web.cc: GooglePicasaWeb::Create, GetMetaFeedXml", "src/kml/convenience/google_spreadsheets.cc: GoogleSpreadsheets::Create, DownloadSpreadsheet", "src/kml/convenience/google_maps_data.cc: GoogleMapsData::Create, GetFeatureFeedXml, PostMedia", "src/kml/convenience/http_client.cc: HttpClient::Login, SendRequest"]}
{"id": "C104", "title": "A computed view looks at the feature", "statement": "ComputeFeatureLookAt returns a view exactly if the feature (recursively, for containers) has a point, line, ring, polygon outer boundary or model location; the LookAt is at a latitude and longitude inside every bounding box that contains all these places (so inside the smallest one), at the place itself if there is only one, with a range of at least a kilometre. GetPlacemarkLatLon, GetPointLatLon and GetCenter give the corresponding places. Places on both sides of the antimeridian, beyond 180 degrees, and ground overlays are not handled as one expects.", "quantifier": "for all features and geometries nested to any depth and all usable coordinates", "why_tests_cant": "the set of nested features and coordinates is unbounded, and rounding of the computed middle must be considered for all doubles", "anchors": ["src/kml/engine/feature_view.cc ComputeFeatureLookAt ComputeBboxLookAt", "src/kml/engine/location_util.cc GetFeatureBounds GetGeometryBounds GetPlacemarkLatLon GetPointLatLon GetCenter"]}
{"id": "C105", "title": "Tour updates move just the placemark they name", "statement": "The gx:AnimatedUpdate made by CreateAnimatedUpdateChangePoint, applied to any document that has a point placemark with the given id, moves that point to the given place, keeps all other values, attributes and coordinates of the placemark, and leaves every other element of the document alone; CreateFlyTo and CreateFlyToForFeature hold an equal copy of the feature's own view, or else the computed view, and there is no flight exactly if there is neither; the elements made by the other convenience functions (CreateLookAt, CreateCamera, CreateRegion2d, CreateWait, the placemark functions) hold exactly the values given, each at its own place. A placemark with another geometry loses it.", "quantifier": "for all documents, ids, places, views and values", "why_tests_cant": "the documents an update is applied to and the views that are copied are unbounded", "anchors": ["src/kml/convenience/convenience.cc CreateAnimatedUpdateChangePoint CreateFlyTo CreateFlyToForFeature CreateWait CreateLookAt CreateCamera CreateRegion2d CreatePointPlacemark CreatePointPlacemarkWithTimeStamp CreateBasicPolygonPlacemark"]}
{"id": "C106", "title": "Distances and directions on the sphere", "statement": "In exact arithmetic the distance between two latitude/longitude pairs is the length of the shorter great circle arc on a sphere of 6366710 m: between 0 and half the circumference, symmetric, 0 exactly for the same place (full turns of the longitude and the poles included), and satisfying the triangle inequality. The point computed at a distance along a radial has exactly that distance from the start (so all vertices of a generated circle have the radius as distance from its centre) and a latitude in [-90, 90]. The azimuth lies in (-180, 180], and walking the distance along the azimuth from the first place ends at the second. The distance with altitudes is at least the distance on the surface and the difference of the altitudes; ground distance and height of range and elevation give both back. The longitude of a point on a radial need not lie in [-180, 180]: a quarter of the way around to the west of longitude -180 gives -270.", "quantifier": "for all real latitudes, longitudes, altitudes, distances and radials (latitudes in [-90, 90] and distances up to half the circumference for points on radials)", "why_tests_cant": "tests compare some places with rounded constants; that the formulas agree with each other and give a metric is a statement about all reals, and includes the antipodes, the poles and the antemeridian", "anchors": ["src/kml/base/math_util.cc AzimuthBetweenPoints DistanceBetweenPoints DistanceBetweenPoints3d ElevationBetweenPoints GroundDistanceFromRangeAndElevation HeightFromRangeAndElevation LatLngOnRadialFromPoint", "src/kml/base/math_util.h", "src/kml/convenience/convenience.cc CreateCoordinatesCircle"]}
{"id": "C107", "title": "Type tests, casts and visitors follow the class hierarchy", "statement": "For every element the library can create, the dynamic type test answers true exactly for the element's own type and the types its class derives from; a cast function returns the element exactly when the element really is of the target class (so the unchecked pointer conversion behind it is sound), and a visitor that overrides one visit function (for instance the one for features) receives exactly the reached elements of that class, in the order of the driver; of several overridden functions only the one of the nearest class is called. Two exceptions are exhibited: the cast to gx:SimpleArrayField accepts a plain SimpleField (a pointer to an object of the wrong class), and the visit function for hotSpot is never called.", "quantifier": "for all creatable element types, all target types of casts, all sets of overridden visit functions, all element trees", "why_tests_cant": "about 90 classes, 104 casts and 97 visit functions are written by hand with the same information in three places; tests try some of them, and each test confirms only the pairs it names, not the absence of wrong answers for all other pairs", "anchors": ["src/kml/dom/kml_cast.cc", "src/kml/dom/kml_cast.h ElementCast AsGxSimpleArrayField", "src/kml/dom/visitor.cc Visitor", "src/kml/dom/visitor_driver.cc SimplePreorderDriver SimplePostorderDriver", "src/kml/dom/element.h Element::IsA", "src/kml/dom/schema.h GxSimpleArrayField", "src/kml/dom/hotspot.h HotSpot"]}
{"id": "C108", "title": "Aliases and creators of the XSD tools", "statement": "Reading any XST text ends; afterwards the alias of a name is the one given by its last line of the form 'alias name alias' in the text, and what it was before if there is no such line; reading the text a second time changes nothing. The creator functions make types, elements and schemas with exactly the given names; a schema needs a prefix and a namespace. (Violated for texts with carriage returns, which stay in the alias, and for words set off by more than one space.)", "quantifier": "for every text, every set of aliases before, every name, type, prefix and namespace", "why_tests_cant": "texts are unbounded; which of several lines wins depends on all the lines after it", "anchors": ["src/kml/xsd/xst_parser.cc: XstParser::ParseXst, XstParser::ParseXstAlias", "src/kml/xsd/xsd_file.h: XsdFile::set_alias, XsdFile::get_alias", "src/kml/xsd/xsd_util.cc: CreateXsdComplexType, CreateXsdElement, CreateXsdSchema"]}
{"id": "C109", "title": "Files made from elements", "statement": "A KmlFile made from an element finds for an id the last element with it in the order of writing, and as shared style that same element if it is a style selector in a Document; making the file fails exactly in the strict variant for a tree in which two written elements share an id. Every id and every shared style known to the file made from a parsed root is known to the parsed file, and the strict variant accepts every parsed document without repeated ids. (Violated the other way round: replaced objects are unknown to the import, a shared style is hidden by any later object with its id, and of two objects with one id the import may give the other one.)", "quantifier": "for every element tree, every id, both variants, every document that can be parsed", "why_tests_cant": "element trees and documents are unbounded; which element wins depends on the order of writing of every class", "anchors": ["src/kml/engine/kml_file.cc: KmlFile::CreateFromImport, KmlFile::CreateFromImportLax, KmlFile::GetObjectById, KmlFile::GetSharedStyleById", "src/kml/engine/id_mapper.cc: MapIds"]}
{"id": "C110", "title": "Text arrives as UTF-8 and entity declarations are refused", "statement": "Names, values and character data reach a handler as they are in the document where expat reports bytes, and in UTF-8 where expat was built to report UTF-16, if all characters are of the Basic Multilingual Plane; the comment that others are dropped is false, as the second half of their pair of surrogates arrives in a form that is not UTF-8. A document that declares an entity is refused by ParseString, by parsing in blocks, by Parse, ParseNS, ParseAtom and XsdFile::CreateFromParse: no function of the handler is called, no entity is expanded, no element is made; a document without entity declarations is parsed as always. XsdFile::CreateFromParse accepts the empty text, and documents without a schema element, and the target namespace of the file it makes of them must not be asked for.", "quantifier": "for all texts of code units, all handlers, all ways of reporting a document and of cutting it into blocks, and all documents read as schemas", "why_tests_cant": "Texts, documents with entity declarations and the places where they are cut are unbounded; the code for UTF-16 is not even compiled where the tests run.", "anchors": ["src/kml/base/expat_handler.h: xmlchar_to_utf8, xml_char_to_string, xml_char_to_string_n", "src/kml/base/expat_parser.cc: entityDeclHandler, ExpatParser::ParseString, ExpatParser::ParseBuffer, ExpatParser::ParseInternalBuffer", "src/kml/dom/parser.cc: Parser::Parse, Parser::ParseNS, Parser::ParseAtom", "src/kml/xsd/xsd_file.cc: XsdFile::CreateFromParse", "src/kml/xsd/xsd_file.h: get_target_namespace"]}
{"id": "C111", "title": "The statistics of an element are those of its text", "statement": "A StatsSerializer given an element without foreign markup counts as many starts and as many ends as the text written for the element has complex elements, and as many fields as it has simple elements other than colours; starts and ends agree for every element; if every element is where its parent takes it, the element count is the number of complex elements below the element. Colours are simple elements and not counted, and elements where their parent does not take them are written and not counted as elements.", "quantifier": "for all elements of all types", "why_tests_cant": "Elements are nested and repeated without bound; a test counts a few by hand.", "anchors": ["src/kml/dom/stats_serializer.h: StatsSerializer", "src/kml/dom/serializer.h: Serializer", "src/kml/dom/element.cc: Element::SerializeUnknown"]}
{"id": "C112", "title": "The getters of an element give what is written for it", "statement": "For every element that can be read, what the getters give for its children agrees with the text written for it: the children a getter gives are exactly the child elements of its type (or of types derived from it) that are written, in the order written; the value of a simple child is the text written for it; the href found for a network link, a model, an overlay or an icon style is the text of the first href in the first link or icon written (a network link also takes the deprecated Url). The only child that is stored but not written is the name of a locality in an xAL address.", "quantifier": "every element made by the parser, every kind of child of its class", "why_tests_cant": "tests look at a few children of a few classes; the statement relates two independent pieces of code (AddElement with the getters, and Serialize) for every class and every combination of children", "anchors": ["src/kml/dom/element.cc: Element::AddElement", "src/kml/dom/networklink.cc: NetworkLink::AddElement, Serialize", "src/kml/dom/xal.cc: XalLocality::Serialize", "src/kml/engine/link_util.h: GetHref, GetLinkParentHref, GetIconParentHref"]}
{"id": "C113", "title": "Date-time text is read and written exactly", "statement": "A DateTime is made from exactly the texts that begin with a year, month, day, hour, minute and second, each a number of at most four or two digits in its range, with -, -, T, : and : between them and a Z at the end, and its fields are these numbers. What is written for it (date, time and both) is always defined and gives the same DateTime when read again; a text in the form YYYY-MM-DDThh:mm:ssZ from the year 1000 on is written back unchanged; ToTimeT of a text from 1970 on is the number of seconds of the calendar, and 0 if there is no date-time in it. Text after the Z and days a month does not have are accepted, and the other forms of xsd:dateTime are refused.", "quantifier": "every text (any bytes, any length)", "why_tests_cant": "there are as many texts as one likes; the tests try one good text and one word", "anchors": ["src/kml/base/date_time.cc: DateTime::Create, ToTimeT, GetXsdTime, GetXsdDate, GetXsdDateTime, ParseXsdDateTime", "src/kml/base/contrib/strptime.c: strptime, conv_num"]}
{"id": "C114", "title": "Fields of elements are independent and have the schema's defaults", "statement": "In an element object, after any sequence of set, clear and child-adding operations, the getter of a simple field gives the value given last, whatever was done to other fields; a field cleared or never set reports that it is not set and its getter gives the default of the KML schema, so an absent child reads like one with the default written out. (Violated: open; and after a misspelt enumeration value the getter keeps an earlier value.)", "quantifier": "for every element class, every simple field and every sequence of operations", "why_tests_cant": "156 fields in 60 classes; interference between fields and stale values only show in particular sequences of operations.", "anchors": ["src/kml/dom/feature.h: Feature", "src/kml/dom/overlay.h: GroundOverlay", "src/kml/dom/abstractlatlonbox.cc: AbstractLatLonBox::AddElement", "src/kml/dom/element.cc: Field::SetEnum, Field::SetDouble"]}
{"id": "C115", "title": "Elements live exactly as long as they are referenced", "statement": "After any sequence of the calls that create, keep, drop, add and remove elements: every element a caller points to exists, and so does every element below it; an element that nobody points to is deleted at once; and, if no element was ever put below itself, every element that exists can be reached from one the caller points to, so that nothing is left when the caller has dropped all pointers. (Violated if elements were made descendants of themselves: these are never deleted.)", "quantifier": "for every sequence of calls and every element", "why_tests_cant": "tests look at a few trees, and a leak or a use after deletion is not visible in them", "anchors": ["src/kml/base/referent.h:Referent", "src/kml/base/xml_element.h:SetParent", "src/kml/dom/element.h:SetComplexChild", "src/kml/dom/element.h:AddComplexChild", "src/kml/dom/element.h:DeleteFromArrayAt"]}
{"id": "C116", "title": "Old-style schema elements become Placemarks with extended data", "statement": "Parsing a document in which a Schema with a parent and a name (the KML 2.0 style) stands among the children of the element it is in: the result is the tree of the document in which the Schema has the id NAME_id, each element behind the Schema that has the name the Schema declares is a Placemark with the attributes, text and children of that element, and its children with the names of the SimpleFields are not children but, in their order, the SimpleData of an ExtendedData with one SchemaData whose schemaUrl is NAME_id. Everything else is parsed as it would be without the Schema. (For fields outside of such elements, elements in front of the Schema and more than one Schema this fails.)", "quantifier": "for all declared names other than Schema and description, all lists of fields, all documents around the Schema of nesting depth up to 100 in which fields have text only and are inside of elements of the schema, which are not in one another", "why_tests_cant": "the parser keeps the data of all elements of the schema in one list and remembers how many of them have been given away; tests have one schema and one or two instances, so mixing up the data of different elements, of nested folders or of elements with no fields goes unnoticed", "anchors": ["src/kml/dom/kml_handler.cc: KmlHandler::StartElement, EndElement, FindOldSchemaParentName, HandleOldSchemaEndElement, HandleOldSchemaParentEndElement, ParseOldSchemaChild", "src/kml/dom/kml_handler.h: KmlHandler", "src/kml/dom/extendeddata.h: ExtendedData, SchemaData, SimpleData"]}
{"id": "C117", "title": "Splitting and inlining styles changes nothing but styles", "statement": "The document made by SplitStyles, and the one made by InlineStyles, is the document that parsing the same text gives, except for the styles and styleUrls of features: with these removed from every feature of both, the two are equal in every element type, attribute, value, coordinate, child, order of children, misplaced element and piece of unknown markup, at whatever depth. Both come to an end for every text that can be parsed in finite time. A document in which no feature outside of Updates has a style of its own is not changed by splitting at all, one without shared styles is not changed by inlining. So doing either a second time, to the text that is written for the first result, gives that result again.", "quantifier": "for all documents the parser accepts (of any shape: with Updates, nested documents, several styles per feature, dangling references), all counters and all tables of shared styles met on the way", "why_tests_cant": "the splitter and the inliner drop elements while the document is being put together, by refusing them to the parser; a test compares a few expected outputs, but no finite number of documents shows that nothing else is ever refused or overwritten", "anchors": ["src/kml/engine/style_splitter.cc: SplitStyles, StyleSplitter::EndElement", "src/kml/engine/style_splitter_internal.h: StyleSplitter", "src/kml/engine/style_inliner.cc: InlineStyles, StyleInliner::EndElement", "src/kml/engine/style_inliner_internal.h: StyleInliner", "src/kml/dom/kml_handler.cc: KmlHandler::EndElement"]}
{"id": "C118", "title": "A file that is saved is what is loaded again", "statement": "When a KML file that was parsed is saved with KmlFile::SerializeToString and the saved text is parsed again, the elements are those that were saved: the elements first parsed, with the namespace declarations that SerializeToString puts on the root and nothing else different. Saving the loaded file again gives the same text, byte for byte. The same holds when the saved text is packed into an archive with its linked files and read as the default KML file of the archive.", "quantifier": "for every document text, every tree of elements read from it that holds nothing the parser reads differently from what the serializer writes, every archive holding the entries KmzFile writes", "why_tests_cant": "Tests save and load a handful of files; that no combination of declared and used namespaces, foreign attributes and linked files makes a difference needs an argument over all of them.", "anchors": ["src/kml/engine/kml_file.cc: KmlFile::SerializeToString, CreateXmlHeader", "src/kml/engine/find_xml_namespaces.cc: FindAndInsertXmlNamespaces", "src/kml/dom/parser.cc: Parser::ParseKml", "src/kml/engine/kmz_file.cc: KmzFile::WriteKmz, ReadKml", "src/kml/base/zip_file.cc: ZipFile::GetEntry"]}
{"id": "C119", "title": "Relative links lead where RFC 3986 says, inside of archives too", "statement": "For every URL scheme://host[:port]/d1/.../dn/name and every relative link that goes up k directories and down along segments s1/.../sm, ResolveUri gives scheme://host[:port]/ followed by the directories without the last k (at most up to the root) and the segments; a complete URL resolves to itself, a fragment to the same document, and a result resolves to itself again from any base. For a file inside of an archive the KmlUri of a link names the same archive and the path inside of it. GetFetchableUri gives the URL without query and fragment. A style URL #id finds the shared style id. Refuted: hosts given as IP literals lose their brackets; style ids with bytes that are not URI characters (letters outside of ASCII, spaces) are never found; a style URL with only a host or only a query is taken for a local one.", "quantifier": "all schemes, hosts, lists of path segments of legal characters, numbers of ways up, fragments; all shared style tables", "why_tests_cant": "a test checks a few pairs of base and link; the property is about all depths, all numbers of .. and all legal characters at once", "anchors": ["src/kml/base/uri_parser.cc: UriParser::CreateFromParse, CreateResolvedUri, GetPath", "src/kml/engine/kml_uri.cc: ResolveUri, KmlUri::CreateRelative, SplitUri, GetFetchableUri", "src/kml/engine/style_merger.cc: StyleMerger::MergeStyleUrl"]}
{"id": "C120", "title": "File names become URIs and back, within the memory allocated", "statement": "Converting any file name of less than 715827880 bytes into a URI, or any URI of less than 2147483647 bytes into a file name, writes no more than was allocated. A name without backslash and NUL comes back unchanged, whatever other bytes it has, and what it is made into is a legal URI reference: a file URL if the name begins with a slash, a relative one otherwise. NormalizeHref leaves names without dot segments as they are. Refuted: for longer names the size to allocate overflows an int; names with a backslash or a drive letter come back as other names.", "quantifier": "all file names and URIs (byte strings of any length)", "why_tests_cant": "the sizes allocated must be enough for every text; the longest expansions and the sizes where int overflows are not reached by tests", "anchors": ["src/kml/base/uri_parser.cc: UriParser::FilenameToUri, UnixFilenameToUri, WindowsFilenameToUri, UriToFilename, UriToUnixFilename, UriToWindowsFilename", "src/kml/engine/kml_uri.cc: NormalizeHref"]}
{"id": "C121", "title": "Numbers keep their digits, and what is written for them never drifts", "statement": "A decimal number in KML is read as the nearest double, and a double is written as the nearest number of 15 significant digits. So a number of up to 15 significant digits (of normal size) is written with exactly its value, any other with a relative error below 6e-15, zero with its sign. Whatever text was read, what is written for it is a decimal number of at most 31 characters, never inf or nan, and reading and writing it again gives the same text; with this the round trip of documents, cloning and saving hold with no assumption on numbers. Integers in range are kept exactly; text that does not begin with a number counts as zero. Refuted: numbers of 16 digits change, not every double is read back from its text, numbers too large become the largest double and integers out of range the nearest int.", "quantifier": "all decimal numerals (any number of digits, any exponent), all doubles, all ints, all documents", "why_tests_cant": "there are 2^64 doubles and unboundedly many numerals; whether 15 digits survive depends on the spacing of decimals and doubles at every exponent", "anchors": ["src/kml/base/string_util.cc: FromString, StringToDouble, ToString", "src/kml/base/string_util.h: ToString", "src/kml/dom/element.cc: Field::SetDouble, Field::SetInt", "src/kml/dom/geometry.cc: Coordinates::ParseVec3, Coordinates::Serialize", "src/kml/dom/serializer.h: Serializer::SaveFieldById"]}
{"id": "C122", "title": "What is written into an archive is what is read from it", "statement": "For every list of files (name and contents) the bytes that writing them into a new archive gives - local headers, deflated data, central directory and end record as the ZIP format says - open as an archive whose table of contents are these names in the order written, and each name gives the contents of the first file written under it, byte for byte, if that is not empty and not larger than the size allowed, with any compression that RFC 1951 undoes (and there is one for all data). In particular an archive made of an element and the files it links to has the document as its default KML file, gives every packed file as it was on the disk, and the element read from it is the element that was saved, with all numbers. The same through a file on the disk: created under one name and opened under any name of it, with every other file left alone, provided there is room; on a full disk true is returned and the archive is without files (false of the code). A KML file on the disk is packed with the files it links to by KmzFile::CreateFromKmlFilepath, and the default file of the archive is read as the element that the KML file is read as; a file that is missing gives false, and one that is not KML makes the library use a null pointer (false of the code). KmlFile::CreateFromParse tells texts and archives apart by the first four bytes; no KML text is taken for an archive, and an archive is read as the first of its files whose name ends in .kml.", "quantifier": "for all lists of at most 19279 files with names of less than 256 bytes without a NUL, all contents as long as the archive is below 88821760 bytes, every compressor and decompressor that undo one another, all sizes of the read buffers of the decompressor, and every element that was read from a text", "why_tests_cant": "A test packs a few small files with one version of the compressor; positions, sizes and signatures in the headers depend on every file before, and an accidental signature in the end record, a name used twice or a large archive never occur in it.", "anchors": ["src/kml/base/zip_file.cc: ZipFile::AddEntry", "src/kml/base/zip_file.cc: ZipFile::GetEntry", "src/kml/base/zip_file.cc: ZipFile::OpenFromString", "src/kml/base/contrib/minizip/unzip.c", "src/kml/engine/kmz_file.cc: KmzFile::CreateFromElement", "src/kml/engine/kmz_file.cc: KmzFile::ReadKml"]}
{"id": "C123", "title": "Files written are read back, and temporary files leave nothing behind", "statement": "After WriteStringToFile returned true, ReadFileToString gives exactly the bytes written, for files of any size, under every name of the same file, whatever the file and the output string held before, provided the disk had room; every other file reads as before. If either function returns false nothing was changed: not the output string, not the disk. Delete and Exists are true of regular files only, a deleted file is gone under all its names and nothing else is. A temporary file is new, empty and usable by its owner only, the umask of the process is unchanged afterwards, and creating, writing, reading and dropping one leaves the disk as it was. The code does not notice errors of the medium: on a full disk WriteStringToFile returns true with the data cut short, a directory reads as an empty file, a damaged file as its first whole 1024-byte blocks, a link to a directory is packed into an archive as an empty file, and a name with a NUL byte means another file.", "quantifier": "for all contents of the disk, all file names, all data and sizes, all ways names are resolved to files, all choices of temporary names", "why_tests_cant": "Tests write a few small files into a temporary directory; they do not fill the disk, damage it, hit sizes around multiples of the buffer, or compare the whole disk before and after.", "anchors": ["src/kml/base/file.cc:File::ReadFileToString, File::WriteStringToFile", "src/kml/base/file_posix.cc:File::Exists, File::Delete, File::CreateNewTempFile", "src/kml/base/tempfile.h:TempFile"]}
{"id": "C124", "title": "Numbers do not depend on the locale, and the locale is left as it was", "statement": "Inside of any nesting of blocks that begin with a LocaleC object numbers have a decimal point whatever the locale of the process or thread is; outside of them the locale is what it was, no locale is leaked and nothing is freed that is still used. ToString writes integers without separators in every locale. The file names of a regionated document are different for different files in every locale. Not true of the code: when the new locale cannot be allocated, when two LocaleC objects do not end in reverse order, or when the program changes the locale inside of the block, a locale that is not its own is freed; and from the 1000th file on regionated files are not named by their number in a locale with digit separators.", "quantifier": "for all locales in use, all programs of nested and successive LocaleC blocks, all numbers and separators", "why_tests_cant": "Tests run in one locale, mostly the classic one, and do not nest, interleave or exhaust locales or write a thousand files.", "anchors": ["src/kml/base/localec.cc:LocaleC", "src/kml/base/string_util.h:ToString", "src/kml/regionator/regionator.cc:Regionator::RegionFilename"]}
