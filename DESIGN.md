# Design

Subject: libkml (`/repo`, C++), read as text. The C++ code is not built or run.
Everything below is about a hand-written Gallina model of selected functions;
each model definition cites the file and lines it models.

## Layout

* `rocq/theories/Common.v` – byte strings (`list ascii`), outcomes, small list lemmas.
* `rocq/theories/<Area>Model.v` – executable model of one area, no proofs.
* `rocq/theories/<Area>Proofs.v` – specifications and lemmas.
* `rocq/theories/<Area>Props.v` – the property theorems, each followed by `Print Assumptions`, the
  small specifications they are stated with, and examples showing that hypotheses can be met. A
  comment that starts with a property id tags the theorems after it.
* `seeded/LOG.jsonl` – wrong versions of model definitions and the theorems that stop compiling.

Conventions: a `std::string` is a list of bytes (`ascii`). Undefined behaviour
(out-of-bounds read, use of an uninitialised or freed object, `top()` on an empty
stack) is a separate outcome `UB`; a C++ exception is `Throw`; a loop that may not
terminate runs on fuel and returns `Fuel` when exhausted. Theorems about normal
behaviour state `= Ok ...`, so they exclude all three. Except in
`NumberModel.v` (decimal text to IEEE double and back) and `GeoModel.v` (real numbers), doubles are
never computed with: they are either opaque tokens, values of an abstract totally
ordered type (a section variable, so the theorem holds for every such type,
in particular for non-NaN IEEE doubles), or integers in refutation witnesses.

Properties that the code violates are proved as `..._refuted` with a concrete
witness, next to the strongest conditional positive theorem found.

## Properties

For each property: the code it is about, the model file, and the theorems. The texts are those above the theorems in the named file.

### C01 Colour text round trip

Writing any colour as AABBGGRR text and reading that text back yields the same colour, and the text is always exactly eight lower-case hex digits; channel setters change only their own channel; converting to ARGB and back is the identity.

Code: `base/color32.h: Color32::to_string_abgr, set_color_abgr, get_color_argb, set_color_argb, set_red/green/blue/alpha`; `base/string_util.cc: b2a_hex`. Model: `ColorModel.v`. Theorems in `ColorProps.v`; status: proved.

* `color_text_round_trip` – Reading back the AABBGGRR text of any 32-bit colour gives that colour, whatever the object held before.
* `color_text_canonical` – The text is eight lower-case hex digits and denotes the colour as a hex number.
* `color_channels_independent` – Each channel setter sets its channel and leaves the three others alone.
* `color_argb_round_trip` – ARGB conversion loses nothing, and the ARGB text denotes the ARGB value.
* `color_from_bytes` – The four-byte setter packs the bytes as AABBGGRR.

### C02 Colour text parsing

Reading a colour from text that, after leading white space and one optional '#', holds hex digits gives the value of the first (up to) eight digits. (The code violates this for texts shorter than eight characters that start with white space or '#', and reads out of bounds for some of them.)

Code: `base/color32.h: Color32::set_color_abgr(const string&)`. Model: `ColorModel.v`. Theorems in `ColorProps.v`; status: proved.

* `color_parse_correct` – A text with at least eight bytes after the optional prefix, or with no prefix, is read as the hex number its specification gives.
* `color_parse_short_prefixed_refuted` – Refuted: a short text after white space is read as a different number.
* `color_parse_in_bounds_refuted` – Refuted: a short text after two white-space bytes makes the code read past the string.
* example `color_parse_correct_example` – Non-vacuity.

Note: Part of the property is false of the code: see the _refuted theorems; the others state what does hold.

### C03 Template expansion replaces every occurrence

Expanding a map of keys in a text replaces every occurrence of start+key+end by the value. (The code violates this when the value is shorter than the marker or contains the key; it holds when the replacement is at least as long as the marker and does not contain the marker's first character.)

Code: `base/string_util.cc: CreateExpandedStrings`. Model: `StringsModel.v`. Theorems in `StringsProps.v`; status: proved.

* `expansion_terminates` – Expansion always terminates normally, for any text, entries and delimiters.
* `expansion_replaces_all` – If for each entry the value does not contain the key, is at least as long as the marker, and its part beyond the marker length lacks the marker's first byte, every occurrence is replaced, left to right, entry by entry.
* `replacement_spec_deterministic` – The specification is functional: it determines the result.
* `expansion_shorter_value_refuted` – Refuted for values shorter than the marker: the second occurrence is skipped.
* `expansion_value_contains_key_refuted` – Refuted for values containing the key: only the first occurrence is replaced.
* example `expansion_replaces_all_example`

Note: Part of the property is false of the code: see the _refuted theorems; the others state what does hold.

### C04 Splitting on a separator is lossless

Splitting a text on a one-character separator returns the pieces whose join with that separator is the text, and no piece contains the separator; for longer separators the pieces keep separator residue.

Code: `base/string_util.cc: SplitStringUsing`. Model: `StringsModel.v`. Theorems in `StringsProps.v`; status: proved.

* `split_single_lossless` – Splitting on one byte: the pieces joined give the text back, no piece contains the byte.
* `split_single_of_join` – Conversely, splitting a join of separator-free pieces returns the pieces.
* `split_terminates` – Every non-empty separator terminates; the empty separator always throws.
* `split_empty_separator_refuted`
* `split_long_separator_refuted` – Refuted for longer separators: residue stays in the pieces.

Note: Part of the property is false of the code: see the _refuted theorems; the others state what does hold.

### C05 CSV field quoting round trip

For any list of at least one field values (without NUL), writing each as a quoted CSV field and splitting the line returns exactly those values.

Code: `base/string_util.cc: SplitQuotedUsing, SplitQuotedUsingFromString`. Model: `StringsModel.v`. Theorems in `StringsProps.v`; status: proved.

* `csv_quoted_round_trip` – Quoted CSV fields round trip.
* example `csv_quoted_example`
* `csv_split_terminates` – Splitting terminates for every input and delimiter.

### C06 CSV splitting of unquoted lines

A delimiter-separated line whose fields contain no quote, delimiter or edge white space splits into exactly those fields, for any delimiter and also when the last field is empty.

Code: `base/string_util.cc: SplitQuotedUsing`. Model: `StringsModel.v`. Theorems in `StringsProps.v`; status: proved.

* `csv_plain_round_trip` – Plain fields joined by any delimiter other than a quote or NUL split back, including empty fields anywhere; only the single empty field is excluded (an empty line has no columns).
* example `csv_plain_example`

### C07 CSV line iteration

Iterating a CSV text yields the non-empty lines in order, each exactly once, and terminates; runs of CR/LF count as one separator.

Code: `base/csv_splitter.cc: CsvSplitter::SplitCurrentLine, FindNextLine`. Model: `StringsModel.v`. Theorems in `StringsProps.v`; status: proved.

* `csv_lines_correct` – Line iteration terminates and yields the first line and then every non-empty line.
* example `csv_lines_example`

### C08 Suffix and case-insensitive comparison

The ends-with test holds exactly when both strings are non-empty and the second is a suffix of the first; case-insensitive equality is an equivalence relation that equals equality of the ASCII-lower-cased strings.

Code: `base/string_util.cc: StringEndsWith, StringCaseEqual`. Model: `StringsModel.v`. Theorems in `StringsProps.v`; status: proved.

* `ends_with_iff_suffix` – Ends-with.
* `case_equal_equivalence` – Case-insensitive equality is an equivalence; on NUL-free text it is equality of the lower-cased strings.
* `case_equal_is_lower_equal`
* `case_equal_nul_refuted` – Refuted with embedded NUL: bytes after it are ignored.

Note: Part of the property is false of the code: see the _refuted theorems; the others state what does hold.

### C09 Attribute sets behave as finite maps

After setting, cutting, merging or splitting by prefix, looking up an attribute returns what a plain map would: later values override, splitting moves exactly the prefixed keys without the prefix, and nothing else changes.

Code: `base/attributes.h: Attributes`; `base/attributes.cc: Attributes::MergeAttributes, FindValue, SplitByPrefix, Parse`. Model: `AttributesModel.v`. Theorems in `AttributesProps.v`; status: proved.

* `attributes_are_maps` – Any sequence of set, cut, merge, split and parse calls on an initially empty attribute set behaves as on a plain function from names to optional values.
* `attributes_cut_returns` – Cutting returns the value that was there.
* `attributes_split_returns` – Splitting by prefix returns exactly the prefixed attributes, without the prefix, and nothing (NULL) exactly if there are none.
* `attributes_find_key` – Searching by value finds an attribute with that value if and only if there is one.
* `attributes_from_vector` – Creating from a vector: pairs are read with the last duplicate winning; a vector of odd length raises an exception instead of returning nothing.
* example `attributes_reachable_sorted` – Non-vacuity: reachable attribute sets are sorted maps, and a run with every operation.
* example `attributes_run`

### C10 Attribute serialization can be read back

Serializing an attribute set and reading the text with an XML reader yields the same names and values. (Holds only if no value contains a quote, '<' or '&': values are not escaped.)

Code: `base/attributes.cc: Attributes::Serialize`. Model: `AttributesModel.v`. Theorems in `AttributesProps.v`; status: proved.

* `attributes_serialize_read_back` – Attributes with XML names and values free of quote, '<', '&', TAB, LF and CR are read back from their serialization by an XML attribute reader, in the same order.
* example `attributes_serialize_nonvacuous`
* `attributes_serialize_quote_refuted` – Refuted: a value with a quote is read back as two attributes (attribute injection).
* `attributes_serialize_ampersand_refuted` – Refuted: a value with an ampersand gives text that is not well-formed.

Note: Part of the property is false of the code: see the _refuted theorems; the others state what does hold.

### C11 Network cache stays bounded and evicts oldest first

With a positive capacity the cache never holds more than that many entries; saving into a full cache evicts exactly the oldest saved entry; a hit returns the item last saved for the URL. (With capacity 0 it grows without bound.)

Code: `base/net_cache.h: MemoryFileCache/NetCache::Fetch, LookUp, Save, Delete, RemoveOldest`. Model: `NetCacheModel.v`. Theorems in `NetCacheProps.v`; status: proved.

* `net_cache_is_fifo_queue` – For every fetcher, capacity and sequence of fetch, look-up, save, delete and evict calls the cache returns what a queue of saved entries (oldest first) returns, has the queue's size, and looks up what the queue holds.
* `net_cache_bounded` – With a positive capacity the cache never holds more entries than that.
* `net_cache_save_visible` – An accepted save is returned by the next look-up.
* `net_cache_refetch_is_hit` – Fetching again right after a fetch that returned an item returns the same item, does not ask the network and leaves the cache alone.
* example `net_cache_run` – Non-vacuity: a run with capacity 2 in which the third save evicts the first entry.
* example `net_cache_sorted_nonvacuous`
* `net_cache_zero_capacity_refuted` – Refuted for capacity 0: the cache can reach every size.
* `net_cache_null_item_refuted` – Refuted: fetching a URL that already has a (NULL) entry evicts another entry although nothing new is stored.

Note: Part of the property is false of the code: see the _refuted theorems; the others state what does hold.

### C12 Date-time to seconds

Converting a UTC date-time to seconds agrees with the proleptic Gregorian calendar. (Violated for years before 1970.)

Code: `base/date_time.cc: DateTime::GetTimeT, is_leap`. Model: `DateTimeModel.v`. Theorems in `DateTimeProps.v`; status: proved.

* `date_time_seconds` – From 1970 on, the seconds are those of the proleptic Gregorian calendar.
* `date_time_leap_years` – Leap years are those of the Gregorian calendar.
* `date_time_monotone` – Later valid date-times have larger seconds, so distinct ones are never confused.
* example `date_time_nonvacuous` – Non-vacuity and known values.
* `date_time_before_1970_refuted` – Refuted before 1970: 1969-12-31 is not one day before the epoch.
* `date_time_before_1970_as_1970` – What happens instead: a date in a common year before 1970 gets the seconds of the same day of 1970.

Note: Part of the property is false of the code: see the _refuted theorems; the others state what does hold.

### C13 Path join and split

Splitting a path returns directory and file whose join is the path again (for paths with a proper directory part), and joining two non-empty parts puts exactly one separator between them when the left one has none.

Code: `base/file.cc: File::JoinPaths, SplitFilePath`. Model: `PathModel.v`. Theorems in `PathProps.v`; status: proved.

* `path_split` – Splitting a path at its last separator; a path without one lies in ".".
* `path_split_no_dir`
* `path_split_total` – These two cases cover every path, and the file part never holds a separator.
* `path_split_join` – Joining what was split gives the path again.
* `path_join_split` – Splitting what was joined gives the parts again.
* `path_join_separator` – Exactly one separator is put between the parts; empty parts are neutral; joining is associative.
* `path_join_assoc`
* example `path_nonvacuous`
* `path_split_join_double_refuted` – Refuted for doubled and for trailing separators.
* `path_split_join_trailing_refuted`

Note: Part of the property is false of the code: see the _refuted theorems; the others state what does hold.

### C14 Archive entry names cannot escape

Adding an entry to a KMZ archive accepts only names that stay below the extraction directory. (The code accepts names such as a/../../x.)

Code: `base/zip_file.cc: ZipFile::AddEntry`. Model: `PathModel.v`. Theorems in `PathProps.v`; status: proved.

* `entry_name_safe_without_dotdot` – An accepted name without a ".." component stays below the extraction directory; absolute names and names that start with a ".." component are rejected.
* `entry_name_absolute_rejected`
* example `entry_name_nonvacuous`
* `entry_name_escape_refuted` – Refuted: a later ".." component escapes.
* `entry_name_dot_escape_refuted`
* `entry_name_harmless_rejected_refuted` – Refuted the other way: a harmless name starting with two dots is rejected.

Note: Part of the property is false of the code: see the _refuted theorems; the others state what does hold.

### C15 Element has at most one parent

Over any sequence of set, add and delete calls, an element accepted by a parent is never accepted by a second one, and the children relation is a forest. Each call is accepted exactly when the new child has no parent and belongs to the same file (or the index exists), changes just the named field, and changes nothing when it is refused.

Code: `dom/element.h: Element::SetComplexChild, AddComplexChild, DeleteFromArrayAt`; `base/xml_element.h: XmlElement::SetParent`. Model: `ParentModel.v`. Theorems in `ParentProps.v`; status: proved.

* `at_most_one_parent` – After any sequence of calls, an element is a child of at most one element, and occurs there once.
* `child_occurs_once`
* `never_adopted_twice` – Once an element was accepted by a parent, every later attempt to give it to any parent is refused and changes nothing, whatever happened in between (including its removal).
* `adopted_in_same_file` – A parent only accepts an element of the same file.
* `children_forest` – If no call puts an element below itself, the children relation has no cycle (with at_most_one_parent: it is a forest).
* example `forest_sample`
* `cycle_refuted` – Refuted: an element is accepted by itself and by its own descendant, which makes a cycle.
* `self_child_refuted`
* `child_knows_parent` – From a child one comes back to the element that has it, while this one lives.
* `fresh_no_parent` – An element that was never given to another has no parent.
* `calls_defined` – A call is defined exactly if the caller holds the elements it names; otherwise its behaviour is undefined.
* `calls_do` – What every call does: it is accepted exactly if the new child has no parent and is of the same file, the index is one of the field, the element is of no file yet; a refused call changes nothing; an accepted one changes the named field of the named element, as said, and no other field of any element which is still alive.
* example `calls_do_sample`

Note: Part of the property is false of the code: see the _refuted theorems; the others state what does hold.

### C16 Removed elements can be reused

An element removed from a parent can be added to another parent. (Violated: removal keeps the old parent reference, so re-adding is refused, and the reference dangles once the parent is destroyed.)

Code: `dom/element.h: DeleteFromArrayAt, SetComplexChild`; `base/xml_element.h: XmlElement::SetParent, GetParent`. Model: `ParentModel.v`. Theorems in `ParentProps.v`; status: proved.

* `never_adopted_twice` – Once an element was accepted by a parent, every later attempt to give it to any parent is refused and changes nothing, whatever happened in between (including its removal).
* `removed_not_reusable_refuted` – Refuted: a removed element cannot be given to another parent.
* `dangling_parent_refuted` – Refuted: after its old parent is destroyed, the parent reference of a removed element, or of an element replaced by a setter, dangles.

Note: Part of the property is false of the code: see the _refuted theorems; the others state what does hold.

### C17 Schema element table

Element names and ids correspond: every known name maps to an id whose name is that name again, ids are unique, and every other name maps to Unknown; element kinds are total.

Code: `dom/xsd.cc: Xsd::ElementId, ElementName, ElementType`; `dom/kml22.cc: kKml22Elements`; `dom/kml22.h: KmlDomType`. Model: `XsdModel.v`. Theorems in `XsdProps.v`; status: proved.

* `element_id_correct` – The id of a tag name is the number of the table entry with that name, or Unknown exactly if there is none.
* `element_names_distinct` – No two ids share a name.
* `element_id_name_id` – Id to name to id, and name to id to name, are identities (except for the icon of an icon style).
* `element_name_id_name`
* `element_name_total` – Names and kinds are defined exactly for the valid ids, for every integer.
* `element_name_icon_refuted` – Refuted for IconStyleIcon: it is written as "Icon", which reads back as another type, and the internal name "IconStyleIcon" is accepted as a tag.
* example `element_table_nonvacuous`

Note: Part of the property is false of the code: see the _refuted theorems; the others state what does hold.

### C18 Enumeration values round trip

For every enumeration type each valid value is written as a text that reads back as that value, no two values share a text, and unknown texts are rejected.

Code: `dom/xsd.cc: Xsd::EnumId, EnumValue`; `dom/kml22.cc: kKml22Enums`. Model: `XsdModel.v`. Theorems in `XsdProps.v`; status: proved.

* `enum_value_round_trip` – Every value of every enumeration is written as a text that reads back as that value.
* `enum_accepted_text` – Every accepted text is written back as itself; other texts are rejected.
* `enum_value_out_of_range_refuted` – Refuted for values outside of the enumeration, which the setters accept: writing them is undefined.
* example `enum_nonvacuous`

Note: Part of the property is false of the code: see the _refuted theorems; the others state what does hold.

### C19 Serialized tags are balanced

Any properly nested sequence of begin, field, content and end calls produces output whose tags are balanced and nest exactly as the calls did, for any newline and indent setting.

Code: `dom/xml_serializer.h: XmlSerializer::BeginById, End, EmitStart, SaveStringFieldById, SaveContent`. Model: `SerializerModel.v`. Theorems in `SerializerProps.v`; status: proved.

* `serializer_total` – Whatever an element consists of, serializing it succeeds (never pops an empty tag stack), for any line break and indentation.
* `serialize_raw_well_formed` – Raw output is a well-formed document whose tree is exactly the element: same names, attributes, order, nesting and text.
* `serialize_indented_well_formed` – With any white space for line breaks and indentation (in particular pretty output) the document is well-formed, has the same elements and attributes in the same places, and its exact content is [content]: white space is added around child elements only.
* example `serializer_sample` – Non-vacuity: an element with attributes, fields, text, tuples, unknown markup and children.
* example `serializer_sample_readable`
* example `serializer_sample_pretty`
* `unbalanced_end_refuted` – An End without a Begin reads the empty tag stack.

Note: Part of the property is false of the code: see the _refuted theorems; the others state what does hold.

### C20 String values survive serialization

A string value written as element content is read back by an XML reader unchanged. (Violated for values containing ']]>' or '<![CDATA['; holds for all others over legal XML characters.)

Code: `dom/serializer.cc: Serializer::MaybeQuoteString, EnityEscapeXml`; `dom/xml_serializer.h: WriteQuoted, SaveStringFieldById`. Model: `SerializerModel.v`. Theorems in `SerializerProps.v`; status: proved.

* `field_value_survives` – A simple element's text is read back exactly, for every value of legal characters that does not contain "]]>" or, if it contains "<![CDATA[", has at most one ampersand and that before any quotation mark.
* `quoted_value_survives` – The same for the quoting function itself.
* example `value_ok_samples`
* `value_with_cdata_end_refuted` – Refuted: a value with "]]>" gives a document that is not well-formed.
* `value_cdata_two_ampersands_refuted` – Refuted: a value with "<![CDATA[" and two ampersands gives a document that is not well-formed.
* `value_cdata_quote_refuted` – Refuted: a value with "<![CDATA[" and a quotation mark is read back as another value.
* `value_carriage_return_refuted` – Refuted: a carriage return does not survive; a control character makes the document unreadable.
* `value_control_character_refuted`

Note: Part of the property is false of the code: see the _refuted theorems; the others state what does hold.

### C21 Parser builds the element tree of the document

For a document built from known elements, the parser returns a root element whose tree equals the document's tree; nested unknown markup is kept as text on its parent.

Code: `dom/kml_handler.cc: KmlHandler::StartElement, EndElement, CharData, PopRoot`. Model: `HandlerModel.v`. Theorems in `HandlerProps.v`; status: proved.

* `parse_builds_tree` – For every document without old-style Schema, with at most 100 levels and no description inside foreign markup, and any accepting observers (in particular none), parsing gives exactly the document's tree.
* `parse_text_builds_tree`
* `tree_known_child` – What the tree is: a known element becomes one child with its attributes, its direct text and, recursively, its children; other markup becomes text of the parent.
* `tree_unknown_child`
* `tree_description`
* example `handler_sample` – Non-vacuity: a document with known, unknown, nested description and icon style elements.
* example `handler_sample_regular`
* example `handler_sample_result`

### C22 Well-formed known-root documents parse

Every well-formed document with a known root and nesting at most 100 yields a root element with the document's content. (Violated: description elements nested inside unknown markup underflow a counter, after which a real description loses its text, or the parse returns nothing at all.)

Code: `dom/kml_handler.cc: KmlHandler::EndElement (in_description_)`; `dom/parser.cc: Parser::Parse`. Model: `HandlerModel.v`. Theorems in `HandlerProps.v`; status: proved.

* `known_root_parses` – Such a document with a known root always yields an element.
* `unknown_root_rejected` – An unknown root yields nothing.
* `nested_description_refuted` – Violated: well-formed documents with a known root where nested description elements inside foreign markup make the parse return nothing, or lose the text of a real description.

Note: Part of the property is false of the code: see the _refuted theorems; the others state what does hold.

### C23 Nesting limit

A document nested deeper than 100 elements is rejected; the number of elements held by the parser never exceeds 100, and the result is no deeper than the document. (The bound on held elements is violated when nested description elements occur inside foreign markup.)

Code: `dom/kml_handler.cc: kMaxNestingDepth, StartElement`. Model: `HandlerModel.v`. Theorems in `HandlerProps.v`; status: proved.

* `too_deep_rejected` – A document nested deeper than 100 is rejected whatever it contains and whatever the observers do.
* `result_depth` – The limit is exact: depth 100 is accepted (see known_root_parses); the result is no deeper than the document.
* `parse_stack_bounded` – At no point of the parse does the stack hold more than 100 elements.
* example `depth_100_accepted`
* example `depth_101_rejected`
* `stack_bound_refuted` – Violated without the condition on descriptions: a document of depth 5 can make the stack grow without bound (here beyond 100).

Note: Part of the property is false of the code: see the _refuted theorems; the others state what does hold.

### C24 Observer notifications

Observers see NewElement in document order and AddChild after the child is complete, once per known non-root element; an element vetoed in EndElement is not attached to its parent; after an observer stops the parse nobody is notified again and no root is returned. (AddChild is reported even for a vetoed child; the end of an element written as an empty-element tag is reported even after the stop.)

Code: `dom/kml_handler.cc: CallNewElementObservers, CallEndElementObservers, CallAddChildObservers`; `dom/parser_observer.h: ParserObserver`. Model: `HandlerModel.v`, `StreamModel.v`. Theorems in `HandlerProps.v`, `StreamProps.v`; status: proved.

* `notifications_in_order` – Accepting observers: every observer gets, in document order, one NewElement per element, and EndElement and AddChild for every element but the root once it is complete.
* `veto_removes_child` – Observers that only veto: the result is the tree without the vetoed children (a vetoed child is missing from its parent with everything below it).
* `observers_exact` – Arbitrary observers: the result and the notifications are those of [observed_doc].
* `stop_is_final` – A root is returned exactly when no observer answered false to NewElement or AddChild; after such an answer nobody is notified again.
* `add_child_after_veto_refuted` – AddChild is reported even for a child that was vetoed and is not in the tree.
* `stop_empty_tag_refuted` – Observers are notified of the end of an element and of a child after one of them has stopped the parse, if the element was written as an empty-element tag.

Note: Part of the property is false of the code: see the _refuted theorems; the others state what does hold.

### C25 Coordinates text parsing

Parsing a coordinates text of lon,lat[,alt] tuples separated by single spaces yields exactly those tuples in order. (Violated when tuples are separated only by newlines, for leading '.', and for text without digits, where the loop does not terminate.)

Code: `dom/geometry.cc: Coordinates::ParseVec3, Coordinates::Parse`. Model: `CoordModel.v`. Theorems in `CoordProps.v`, `NumberDomProps.v`; status: proved.

* `coordinates_parsed` – Tuples of two or three numbers, separated by white space that contains a space, with optional white space around the commas, are parsed to exactly those numbers in order.
* `coordinates_terminate` – Parsing ends for the empty text and for every text with a digit or a minus sign.
* `decimal_literals_are_numbers` – Every number written in the usual way is one of the numbers of the theorems here: in particular a lone one is read whole as a longitude.
* example `decimal_literal_samples`
* example `sample_tuples_ok` – Non-vacuity: the documented kinds of text that do parse.
* `coordinates_hang_refuted` – Refuted: a non-empty text without digit and minus sign (for instance one space) makes the parser loop forever, whatever the number of iterations.
* `newline_separated_refuted` – Refuted: tuples separated by line feeds only lose the longitude of the second tuple.
* `space_before_comma_refuted` – Refuted: a space before the second comma splits the tuple, although the documentation promises any white space around the commas.
* `leading_point_refuted` – Refuted: a leading decimal point is dropped.
* `lone_minus_refuted` – Refuted: a lone minus sign reads an uninitialized number; a token of 1024 or more characters is written past the end of a buffer.
* `long_token_refuted`
* `token_limit` – Shorter tokens are read: a tuple of one number of up to 1023 digits has no more to it.
* `coordinates_digits_kept` – Whatever number of tuples: each of their numbers of up to 15 digits is written with the value it had in the text, in order; an altitude that is left out is 0.
* example `coordinates_digits_sample`

Note: Part of the property is false of the code: see the _refuted theorems; the others state what does hold.

### C26 Coordinates survive serialize and parse

Serializing coordinates and parsing them again yields the same tuples. (Holds for pretty output with indentation; violated for raw output with two or more tuples.)

Code: `dom/geometry.cc: Coordinates::Serialize, Parse`; `dom/xml_serializer.h: SaveVec3`. Model: `CoordModel.v`. Theorems in `CoordProps.v`, `NumberDomProps.v`; status: proved.

* `pretty_coordinates_round_trip` – The text written by the pretty printer for any list of tuples, at any nesting depth of a parsable document, is parsed back to the same numbers.
* `pretty_coordinates_document` – Whole documents: a coordinates element written by the pretty printer is read by the parser as a coordinates element that parses its text to the same numbers.
* example `vec_ok_samples`
* `raw_coordinates_one` – Raw output of one tuple is read back.
* `raw_coordinates_refuted` – Refuted: for any two tuples, raw output is read back with the second tuple replaced by its latitude and altitude taken as longitude and latitude.
* `coordinates_digits_kept` – Whatever number of tuples: each of their numbers of up to 15 digits is written with the value it had in the text, in order; an altitude that is left out is 0.
* example `coordinates_digits_sample`

Note: Part of the property is false of the code: see the _refuted theorems; the others state what does hold.

### C27 Visitors reach every child element

A visitor driver visits every element of the tree once, parents before children in pre-order and after in post-order. (Violated: author, link and address children of a feature are never visited although they are serialized.)

Code: `dom/visitor_driver.cc: SimplePreorderDriver, SimplePostorderDriver`; `dom/feature.cc: Feature::AcceptChildren, SerializeBeforeStyleSelector`. Model: `DomModel.v`. Theorems in `DomProps.v`; status: proved.

* `preorder_visits` – A visitor driver goes through positions of the element tree without repetition: exactly the positions each step of which goes through a child list the class hands to visitors; the elements visited are those at these positions; parents come before their children (after them in post-order).
* `postorder_visits`
* `visited_child_lists` – The child lists that are not handed to visitors are exactly these.
* `visit_author_refuted` – An author of a feature is written but not visited.

Note: Part of the property is false of the code: see the _refuted theorems; the others state what does hold.

### C28 Style resolution precedence

Resolving a feature's style gives inline style values precedence over the shared style referenced by styleUrl, sub-style by sub-style and field by field, and values set by neither stay unset.

Code: `engine/style_resolver.cc: StyleResolver::CreateResolvedStyle`; `engine/style_merger.cc: StyleMerger::MergeStyle`; `engine/merge.cc: MergeElements`. Model: `StyleModel.v`. Theorems in `StyleProps.v`; status: proved.

* `resolve_precedence` – The style of a feature: the styles its styleUrl leads to, then those of its own selector, are merged one over the other: every value and attribute of the result is that of the last of these styles which has one, and is unset if none has.
* `resolve_inline_over_shared` – A shared style and an inline style.
* `resolve_document` – A Document has no style of its own: the shared styles in it do not change how it is resolved.
* `pair_state` – The state of a pair of a style map: it is that of the highlighted style exactly if its key says so.

### C29 Style resolution terminates

Resolving a style terminates for every document, including cyclic style maps, following at most a fixed number of style URLs; and with styles that hold nothing unknown, misplaced or repeated it always ends with such a style.

Code: `engine/style_merger.cc: StyleMerger::MergeStyleUrl, MergeStyleMap`; `engine/engine_constants.h: kDefaultMaxNestedStyleUrls`. Model: `StyleModel.v`. Theorems in `InlineTotalProps.v`, `StyleProps.v`; status: proved.

* `resolve_defined` – With plain styles (StylePlain.v: nothing unknown, misplaced or repeated in them) resolving is always defined: it gives a Style, which is plain again.
* `resolve_terminates` – Whatever the styles refer to: resolving ends, with the same result for every allowed depth of calls not less than the limit, and follows at most that many style URLs. (UB stands for a merge outside of MergeModel.v.)

### C30 Style URL limit counts nesting

References nested no deeper than the limit are all followed. (Violated: the limit is a total budget, so a style map with many matching pairs loses the later ones.)

Code: `engine/style_merger.cc: StyleMerger::MergeStyleUrl (nesting_depth_)`. Model: `StyleModel.v`. Theorems in `StyleProps.v`; status: proved.

* `url_limit_total` – References which lead to at most five style URLs in all are followed.
* `url_limit_nesting_refuted` – A StyleMap whose pairs refer to styles, not to further style maps, can lose the later ones.
* example `resolve_sample` – A style map, both states, and an inline style.
* example `resolve_cycle` – Style maps which refer to each other.
* example `inline_over_shared_sample` – The hypotheses of resolve_inline_over_shared.

Note: Part of the property is false of the code: see the _refuted theorems; the others state what does hold.

### C31 Merging elements is right-biased

Merging a source element into a target gives every field set in the source, keeps target fields the source does not set, at every depth, and merging an element into a copy of itself changes nothing (for elements whose children have distinct types; violated for the text of a Snippet, for several children of one type and for the points of a track).

Code: `engine/merge.cc: MergeFields, MergeElements, FieldMerger, ElementMerger`. Model: `MergeModel.v`. Theorems in `MergeProps.v`; status: proved.

* `merge_correct` – For a source and a target made from distinct kinds of children ([mergeable]): the merge is defined, and at every depth every value and attribute is that of the source if the source has one, else that of the target; coordinates of the source replace those of the target.
* `merge_same` – Merging an element into a copy of itself changes no value.
* example `merge_sample` – The hypotheses hold of ordinary styles and placemarks.
* `merge_text_refuted` – The text of a Snippet is not merged.
* `merge_pairs_refuted` – Two children of one type are both merged into the first child of that type of the target.
* `merge_track_refuted` – Points of a track are added to those of the target: merging a track into a copy of itself doubles it.

Note: Part of the property is false of the code: see the _refuted theorems; the others state what does hold.

### C32 Splitting styles preserves appearance

Turning inline styles into shared ones leaves the resolved style of every feature unchanged. Splitting is defined for every document that can be read whose features have styles that can be copied, wherever the features are: inside of the first Document, before it or behind it. (Violated when the inline style has its own id, or when a document style already uses a generated id.)

Code: `engine/style_splitter.cc: SplitStyles, StyleSplitter`. Model: `SplitModel.v`. Theorems in `SplitProps.v`, `SplitTotalProps.v`, `StyleSameProps.v`; status: proved.

* `split_preserves` – SplitStyles keeps the look of every feature of a file of one Document if: the shared styles have different ids; neither they nor any reference in the document use an id of the form _0, _1, ...; and in every feature (neat) the first style or style reference is a reference, or there is one style without an id and no reference. neat also asks that styles and references contain no features, that the elements of the style are good (MergeProofs.v: MergeElements copies them), and that an Update contains no Update.
* `split_complete` – Every style is split off: a feature which is left with a style has a reference as well. (Less than 2^32 styles: after that the ids are used up.)
* example `split_sample` – The styles of all features, written.
* `split_own_id_refuted` – An inline style with an id: the reference is to a made up id, the style keeps its own.
* `split_used_id_refuted` – A shared style with the id _0.
* `split_dangling_refuted` – A reference to _0, which does not exist.
* `split_late_reference_refuted` – A style before the style reference of a feature.
* `split_two_styles_refuted` – Two styles in a feature.
* `split_defined` – Splitting is defined for every document of split_preserves that can be read at all: no style is lost to an error.
* `split_keeps_looks` – So the looks of the features of such a document are kept, with nothing asked of the splitting.
* example `split_defined_sample` – The sample of SplitProps.v is such a document.
* `split_any_defined` – Splitting is defined for every document that can be read, whatever its parts and their order are, if the styles of its features can be copied; and it changes styles only.

Note: Part of the property is false of the code: see the _refuted theorems; the others state what does hold.

### C33 Inlining styles preserves appearance

Replacing style references by inline copies leaves the resolved style of every feature unchanged, and is defined for every document that can be read whose shared styles hold nothing unknown, misplaced or repeated. (Violated for references that precede the shared style.)

Code: `engine/style_inliner.cc: InlineStyles, StyleInliner`. Model: `AttributesModel.v`, `CloneModel.v`, `ColorModel.v`, `CoordModel.v`, `DomModel.v`, `DomTables.v`, `HandlerModel.v`, `IdModel.v`, `MergeModel.v`, `SerializerModel.v`, `SplitModel.v`, `StringsModel.v`, `StyleModel.v`, `XsdModel.v`, `XsdTables.v`. Theorems in `InlineProps.v`, `InlineTotalProps.v`; status: proved.

* `inline_preserves` – InlineStyles keeps the resolved style of every feature of a file of one Document, ids aside, leaves no shared style, and no reference of a feature to one. The conditions: in the Document (tidy) the shared styles come before the features, a feature with a reference into the file has no other style or reference, styles and references contain no features, and there is no further Document and no Update; the shared styles have different ids, their Styles are plain (StylePlain.v: MergeElements copies them) and they refer to this file only; and no reference from another place (in an inline StyleMap, of the Document, in fetched files) is to a shared style.
* example `inline_sample` – Styles, and maps of references.
* `inline_forward_reference_refuted` – The style comes after the feature: it is taken out of the Document but not put into the feature.
* `inline_document_reference_refuted` – The Document itself refers to the style.
* `inline_both_refuted` – A feature with a reference and a style of its own.
* `inline_map_reference_refuted` – A feature whose own StyleMap refers to the style.
* `inline_defined` – Inlining is defined for every document that can be read, if the named styles of its Documents are plain.
* `inline_keeps_looks` – So every document of the tidy form has an inlined one, which looks the same.
* example `inline_defined_sample` – Checking the hypothesis on an example.

Note: Part of the property is false of the code: see the _refuted theorems; the others state what does hold.

### C34 Object id lookup

After parsing, looking up an id returns an element carrying that id; with strict parsing duplicate ids make the parse fail, otherwise the last element in document order is returned.

Code: `engine/object_id_parser_observer.h: ObjectIdParserObserver::AddChild`; `engine/kml_file.cc: KmlFile::GetObjectById`. Model: `FileModel.v`, `IdModel.v`. Theorems in `FileProps.v`, `IdProps.v`; status: proved.

* `object_by_id_correct` – A file gives for an id the last element in document order which has it, and nothing exactly when no element has it.
* `strict_parse_iff_distinct` – With the strict observer the parse succeeds exactly when no two elements have the same id.
* example `lookup_sample` – Non-vacuity: two elements share an id.
* `import_object_by_id` – Making a file from elements keeps for an id the last written element with it, and fails (when strict) exactly when two written elements have the same id.
* `import_strict_iff_distinct`
* example `import_sample`

### C35 Clearing ids removes all ids

Clearing the ids of a tree leaves no element with an id and changes nothing else. (Violated with duplicate ids, where earlier duplicates keep theirs, and for elements in a wrong place.)

Code: `engine/id_mapper.cc: ClearIds, MapIds`. Model: `IdModel.v`. Theorems in `IdProps.v`; status: proved.

* `clear_ids_correct` – Clearing takes the id from an element exactly when the element is the last one with its id that is written; every other element keeps its id, and nothing but ids changes.
* `clear_ids_all` – If the written elements have different ids, and every element with an id is written, no id is left.
* example `clear_sample`
* `clear_ids_duplicate_refuted` – With equal ids, or with an element in a wrong place, an id is left.
* `clear_ids_misplaced_refuted`

Note: Part of the property is false of the code: see the _refuted theorems; the others state what does hold.

### C36 Update delete removes the addressed feature

Applying an update with a Delete removes exactly the addressed feature. (Violated with duplicate ids: the first match is removed while the last was addressed, and a later delete can use freed memory.)

Code: `engine/update_processor.cc: UpdateProcessor::ProcessUpdateDelete, DeleteFeature`; `dom/container.cc: Container::DeleteFeatureById`. Model: `UpdateModel.v`. Theorems in `UpdateProps.v`; status: proved.

* `delete_correct` – Deleting by ids, in a file which was read and whose ids are distinct: nothing undefined happens; an element is still there (found by [g] at its new place, saying the same as before) unless it is, or is in, a feature with one of the ids in a container or in kml; parents and the order of children are kept.
* example `delete_sample` – The hypotheses hold, and this is what is left after deleting a placemark in a folder and one in the document.
* `delete_equal_ids_refuted` – With equal ids the first child with the id is removed though the last one was addressed; deleting a child of the one removed is then undefined.
* `delete_misplaced_refuted` – A feature in a place where no feature is expected stays.

Note: Part of the property is false of the code: see the _refuted theorems; the others state what does hold.

### C37 Cloning

Cloning an element produces an element that serializes identically and shares no mutable node with the original.

Code: `engine/clone.cc: Clone, ElementReplicator`. Model: `CloneModel.v`. Theorems in `CloneProps.v`, `NumberDomProps.v`; status: proved.

* `clone_parsed` – The clone of an element that was read from a text is equal to it, so it is written the same (for [cloneable] elements; that no node is shared holds by construction, elements being values here).
* `clone_correct`
* example `clone_sample`
* `clone_simple_refuted` – A simple element cannot be cloned.
* `clone_misplaced_refuted` – An element misplaced inside of a SimpleData with text becomes its own child.
* `clone_empty_text_refuted` – The clone of a SimpleData with empty text has no text and is written differently.
* `clone_link_refuted` – CDATA marks in a link are taken off the clone.
* `document_cloned` – The clone of what was read is equal to it.

Note: Part of the property is false of the code: see the _refuted theorems; the others state what does hold.

### C38 KMZ URL splitting

Splitting a URL at the archive gives the archive URL and the path inside; for a URL of the form u.kmz/p with no earlier '.kmz' the parts are u.kmz and p. (Text directly after '.kmz' that is not a slash loses a character.)

Code: `engine/kml_uri.cc: KmzSplit`. Model: `UriModel.v`. Theorems in `UriProps.v`; status: proved.

* `kmz_split_path` – A path inside an archive: archive URL and path, for every archive URL whose first part has no archive name itself. The path may hold further archive names.
* `kmz_split_archive` – The archive itself: empty path.
* `kmz_split_none` – Not a KMZ URL exactly when the four bytes occur nowhere.
* `kmz_split_shape` – What every split looks like: the archive ends at the first occurrence, and the archive and the path are the URL less at most one byte between them.
* `kmz_split_lost_byte_refuted` – The byte between them is dropped even when it is not a slash: two different URLs get the same split, and the path is not what follows the archive name.
* example `kmz_split_example`
* `texture_relative_to_model` – The URL of a texture of a model is relative to the URL of the model and not to that of the file with the Model.
* `texture_without_model` – No URL for the model, no URL for the texture.
* example `texture_sample`
* `uri_parts` – The parts a cache uses: the target, the resolved URL, and if the URL is that of an archive the URL of the archive and the path in it; there are none if a step fails.

Note: Part of the property is false of the code: see the _refuted theorems; the others state what does hold.

### C39 Href parsing

Parsing an href splits it into scheme, network location, path and fragment whose recomposition is the href. (Violated when a scheme is present and the path is followed by a fragment.)

Code: `engine/href.cc: Href::Parse`. Model: `UriModel.v`. Theorems in `UriProps.v`; status: proved.

* `href_relative` – A relative href: path and fragment.
* `href_relative_path` – A relative href without a fragment is all path.
* `href_absolute_exact` – What an absolute href gives in every case, with the wrong length spelled out: the path is cut at the position of the fragment in the whole href, counted from the path's start.
* `href_absolute_fragment_refuted` – So an absolute href with a fragment never gets the right path: the path always has the fragment mark in it.
* example `href_absolute_fragment_example`
* `href_host_only_refuted` – A host without a path becomes the path.
* `href_fragment` – The fragment is right for every href: everything after the first mark.

Note: Part of the property is false of the code: see the _refuted theorems; the others state what does hold.

### C40 Bounding box contains what it was expanded with

After expanding a bounding box with points or other non-empty boxes it contains all of them, contains nothing smaller would not, and expanding is order independent. (Expanding with an empty box yields the whole world.)

Code: `engine/bbox.h: Bbox::ExpandLatLon, ExpandFromBbox, Contains, ContainedByBbox`. Model: `BboxModel.v`. Theorems in `BboxProps.v`; status: proved.

* `bbox_contains_points` – A box expanded with points contains all of them, and what it contained before, and is the smallest such box.
* `bbox_keeps_contents`
* `bbox_smallest` – Starting with the empty box: the smallest box around one or more points of latitudes and longitudes between -180 and 180.
* `bbox_order_irrelevant` – The order of the points does not matter: the boxes contain each other.
* `bbox_expand_from` – Expanding with another box that is not inside out contains that box.
* `bbox_expand_empty_refuted` – Refuted for empty boxes: expanding with the empty box gives the whole world.
* `bbox_nan_ignored` – A point that is not a number is ignored; the box does not contain it.
* `feature_bounds_exact` – The bounds of a feature exist exactly if it has a coordinate, and are the smallest box around its coordinates.
* `feature_place` – The place of a feature is the center of its bounds; it has one exactly if it has a coordinate.
* example `bounds_sample`

Note: Part of the property is false of the code: see the _refuted theorems; the others state what does hold.

### C41 Bounding box alignment

Aligning a box to the quadtree returns a quadtree cell that contains the box, no deeper than the requested maximum.

Code: `engine/bbox.h: Bbox::AlignBbox, ContainedByBox`. Model: `BboxModel.v`. Theorems in `BboxProps.v`; status: proved.

* `align_gives_cell` – Aligning gives a cell of the quadtree that contains the box, at most one level deeper than asked for; unless that level is reached no quadrant of the cell contains the box.
* `align_depth_refuted` – Refuted: with maximum depth 0 the cell is one level deep.

Note: Part of the property is false of the code: see the _refuted theorems; the others state what does hold.

### C42 Entity map is per schema data

Each SchemaData's values are labelled by its own Schema. (Violated: field names of an earlier schema leak into a later SchemaData.)

Code: `engine/entity_mapper.cc: EntityMapper::GatherSchemaDataFields, PopulateSimpleFieldNameMap`. Model: `EntityModel.v`. Theorems in `EntityProps.v`; status: proved.

* `labels_correct` – If all schemas are known and declare the fields used, or no schema is known, every value gets the label of its own schema.
* example `labels_example` – A SchemaData of no schema after one with a schema gets the labels of the first; a field the schema does not declare gets an empty label.
* `labels_leak_refuted`
* `labels_undeclared_refuted`

Note: Part of the property is false of the code: see the _refuted theorems; the others state what does hold.

### C43 Feature list splitting is a partition

Splitting a feature list by a box moves, in order, the first at most N features inside the box to the output and keeps all other features in order.

Code: `convenience/feature_list.cc: FeatureList::BboxSplit`. Model: `FeatureListModel.v`. Theorems in `FeatureListProps.v`; status: proved.

* `bbox_split_partition` – Splitting by a box: the features moved and those kept interleave to the list; moved are the first N inside the box (all if N is 0).
* `bbox_split_exhausts` – If fewer than N are moved, none inside the box is kept.
* `region_split_without_box` – Without a box nothing is moved.
* example `split_sample`

### C44 Feature list sorting

Sorting a feature list by score gives a permutation in descending score order that keeps the order of equal scores.

Code: `convenience/feature_list.cc: FeatureList::Sort`. Model: `FeatureListModel.v`. Theorems in `FeatureListProps.v`; status: proved.

* `sort_correct` – Sorting: a permutation in descending order that keeps the order of equal scores; such a list is unique.
* `sort_determined`
* `sort_idempotent`
* example `sort_sample`

### C45 CSV line numbers

Line numbers reported while parsing CSV are the line numbers in the file. (Violated after blank lines.)

Code: `convenience/csv_parser.cc: CsvParser::ParseCsv, CsvParserHandler::HandleLine`. Model: `CsvModel.v`. Theorems in `CsvProps.v`; status: proved.

* `csv_parse_correct` – Every data line gives one call, in order, until the handler refuses; calls are numbered 2, 3, ... and carry what the line says under the columns of the header ([spec_line]).
* `csv_bad_header` – A header without a latitude or longitude column, or an empty one, is reported once as line 1.
* `csv_blank_text` – Each text has a first line, which may be blank: a blank text is reported as a blank line 1.
* `csv_parse_total` – Nothing a file contains makes the parser fail.
* `csv_line_numbers` – A line of a text without blank lines is reported under its own line number, whatever the line ends are (LF, CR, CR LF; [eol] is any of them).
* example `csv_example`
* `csv_blank_line_refuted` – With a blank line the numbers are wrong: the third line of this text is reported as line 2.
* `csv_quoted_line_end_refuted` – A quoted field holding a line end, as CSV allows, is torn apart.

Note: Part of the property is false of the code: see the _refuted theorems; the others state what does hold.

### C46 Simplified paths stay close

Each vertex dropped while simplifying coordinates lies within the tolerance of a kept vertex. (Violated: distances are measured to the previously visited vertex, so a long dense path collapses to its first point.)

Code: `convenience/convenience.cc: SimplifyCoordinates`. Model: `SimplifyModel.v`. Theorems in `SimplifyProps.v`; status: proved.

* `simplify_keeps` – Which vertices are kept: the first one, and every other one which is not near the vertex just before it. Stated by positions: [kept] lists the positions that survive.
* `simplify_dropped` – What does hold of a dropped vertex: some kept vertex precedes it and every step from there to the dropped vertex is within the tolerance.
* `simplify_no_tolerance` – Without a positive tolerance the path is copied.
* `simplify_close_refuted` – A climb of any height in steps of one tolerance collapses to its starting point: the end is as far away as one likes from everything that is kept.
* `simplify_ring_refuted` – A closed ring can come out open, and simplifying again can change the result.
* `simplify_again_refuted`

Note: Part of the property is false of the code: see the _refuted theorems; the others state what does hold.

### C47 GPX points

Each track point with coordinates is reported once with its own coordinates and one without is not reported. (Violated: a point lacking coordinates is reported with those of an earlier point.)

Code: `convenience/gpx_trk_pt_handler.h: GpxTrkPtHandler`. Model: `GpxModel.v`. Theorems in `GpxProps.v`; status: proved.

* `gpx_points_correct` – Effect on the altitude and time of what is inside of a track point.
* example `gpx_example`
* `gpx_missing_coordinates_refuted` – A point without coordinates is reported with those of the point before.
* `gpx_blank_number_refuted` – A blank altitude or a blank coordinate makes the reader use a number that was never set.
* `gpx_no_coordinates_no_points` – Before the first point with coordinates nothing is reported: no document invents a point.

Note: Part of the property is false of the code: see the _refuted theorems; the others state what does hold.

### C48 Regionation is complete and disjoint

Regionating a feature list puts every feature inside the root region in exactly one generated file with at most ten features each and terminates.

Code: `regionator/regionator.cc: Regionator::_Regionate`; `regionator/feature_list_region_handler.cc: FeatureListRegionHandler::HasData`; `convenience/feature_list.cc: BboxSplit`. Model: `FeatureListModel.v`. Theorems in `FeatureListProps.v`; status: proved.

* `regionate_complete` – It terminates, and every feature of the list ends in exactly one file or stays; none inside the root box stays; each file has features, at most N, all inside the file's box, which is the box of its node.
* `regionate_exact` – For a root box with numbers that can be doubled, south not above north and west not right of east: the features in the files are exactly those inside the root box.
* `regionate_names` – The files have distinct names, provided the name chosen for the root is not a number followed by .kml.
* `regionate_links` – The links of a file name the files of its children, in order NW, NE, SW, SE; every file but the root's is linked from the file of its parent.
* `regionate_root` – If any file is written, the last one is the root's, its number is 1, and it is named as asked.
* `regionate_order` – Features in a file do not come after those in files below it in the order of the list; a file with files below is full.
* `regionate_full`
* `regionate_list_complete` – FeatureListRegionator::Regionate: the whole list, for coordinates in range.
* example `regionate_sample`
* example `listed_sample`
* `regionate_owned_refuted` – A feature that is in a document already is taken from the list but is in no file; a file without features is written.
* `regionate_stop_refuted` – If the progress monitor says stop, the features of that region are lost, and the siblings are visited all the same.
* `regionate_stopped` – Whatever the progress monitor says, and whatever was there before: every link in a file names a file which was written, and true is returned only if the root's file was.
* example `regionate_stopped_sample` – The case of a region stopped at the second feature: no link is left to its files, which are not written.
* `regionate_root_name_refuted` – A root file named like one of the numbered files: two files have one name.

Note: Part of the property is false of the code: see the _refuted theorems; the others state what does hold.

### C49 Region ids and child regions

Quadtree ids of distinct nodes are distinct and their depth is their distance from the root; the four child regions cover their parent and lie inside it. The element of a child region has the box of its quadrant, with the altitudes and the Lod of its parent, and no id; the link to the file of a region and the document of a region hold an equal copy of the region, and the link is fetched when the region is in view.

Code: `regionator/regionator_qid.h: Qid::CreateChild, depth`; `regionator/regionator_util.cc: CreateChildRegion`. Model: `FeatureListModel.v`, `RegionLinkModel.v`. Theorems in `FeatureListProps.v`, `RegionLinkProps.v`; status: proved.

* `qid_distinct` – Ids of distinct nodes are distinct; the children lie in their parent and cover it.
* `qid_depth_distance` – The depth reported is the distance from the root plus one.
* `child_regions_inside`
* `child_regions_cover`
* `child_regions_meet` – Children meet only in their edges: a point in two of them is on a midline.
* `node_inside_ancestor` – At any depth.
* `midpoint_between` – The midpoint used for this: never outside the two numbers, whatever the rounding.
* example `midpoint_sample`
* `child_regions_overflow_refuted` – With numbers too large to double the children are not inside.
* `child_region_correct` – The region of a quadrant, as an element: its box is the quadrant of the box of the region, with the altitudes and whatever else is in it, and its Lod is the one of the region; each is there if the region has it, and nothing else is. A number is a text here: the middle of the box is taken to be read as it is printed.
* `region_link_correct` – A link to the file of a region, and the document of a region: a region equal to the one given, in an element of its own, and for the link the address asked for, to be fetched when the region is in view.
* example `child_region_sample` – A region with altitudes, read from a text, with the numbers of NumberModel.v: the hypotheses, and its south-eastern quadrant.

Note: Part of the property is false of the code: see the _refuted theorems; the others state what does hold.

### C50 Region outline is closed

The line string drawn around a box is closed. (Violated: the last point repeats the south-west corner.)

Code: `regionator/regionator_util.cc: CreateLineStringBox`. Model: `FeatureListModel.v`. Theorems in `FeatureListProps.v`; status: proved.

* `outline_closed_refuted` – The outline has the four corners in order and ends at the south-west corner, given twice, instead of the first.
* example `outline_sample`

Note: Part of the property is false of the code: see the _refuted theorems; the others state what does hold.

### C51 XSD type hierarchy

Asking for the type hierarchy of an element terminates and lists the chain of base types. (Does not terminate for cyclic extension bases.)

Code: `xsd/xsd_file.cc: XsdFile::GetTypeHierarchy, SearchTypeHierarchy`. Model: `XsdFileModel.v`. Theorems in `XsdFileProps.v`; status: proved.

* `hierarchy_correct` – The hierarchy of a type is the chain of its base types ([XsdFileProofs.chain]); asking for it does not end exactly when a base type is its own ancestor.
* `hierarchy_terminates_iff`
* `search_correct`
* `search_cyclic` – A search which finds its type ends even in a cyclic file; one which does not find it never ends.
* `elements_of_type_correct` – The elements derived from a type, for a file without cycles.
* `hierarchy_cyclic_refuted` – Two types extending each other: the question never gets an answer.
* example `hierarchy_example`

Note: Part of the property is false of the code: see the _refuted theorems; the others state what does hold.

### C52 Boolean and decimal text acceptance

Boolean text reads as true exactly when, after leading white space, it starts with 'true' or '1', and written booleans read back; decimal text is accepted exactly when it starts with an optional minus, an optional point and a digit.

Code: `base/string_util.cc: FromString(bool), ToString(bool), IsDecimalDoubleString, StringToDouble`. Model: `StringsModel.v`. Theorems in `StringsProps.v`; status: proved.

* `bool_text_round_trip` – Boolean text.
* `bool_text_accepts`
* `decimal_text_accepts` – Decimal text: accepted exactly when it starts -?.?digit.

### C53 Unknown attributes and namespace declarations survive

Attributes that an element type does not know, and its xmlns declarations, are written back unchanged with the element. (Violated for the reserved name xmlns:xmlns and when unknown attributes are added in a second batch.)

Code: `dom/element.cc: Element::AddUnknownAttributes, SerializeAttributes`; `base/attributes.cc: Attributes::SplitByPrefix`. Model: `AttributesModel.v`. Theorems in `AttributesProps.v`; status: proved.

* `unknown_attributes_survive` – Attributes an element does not know, and its namespace declarations, are all written back unchanged, unless one is named xmlns:xmlns.
* example `unknown_attributes_nonvacuous`
* `unknown_attributes_reserved_refuted` – Refuted: the reserved name xmlns:xmlns turns into a default namespace.
* `unknown_attributes_second_batch_refuted` – Refuted for a second batch: adding further unknown attributes drops the earlier ones.

Note: Part of the property is false of the code: see the _refuted theorems; the others state what does hold.

### C54 Archive table of contents

Searching an archive by suffix returns the first listed entry with that suffix or reports that there is none; an entry is returned exactly if it is listed, present, non-empty and within the size limit; data counts as an archive exactly if it starts with the zip signature.

Code: `base/zip_file.cc: ZipFile::FindFirstOf, IsInToc, GetEntry, IsZipData`. Model: `PathModel.v`. Theorems in `PathProps.v`; status: proved.

* `zip_find_first` – The first table-of-contents entry with the given suffix is found, or none exists.
* `zip_get_entry` – An entry is returned exactly if it is listed, found, not empty and not above the size limit.
* `zip_data_detection` – Data is taken for an archive exactly if it starts with the local file header signature.
* example `zip_nonvacuous`

### C55 Type names for debugging

The debug string of an element type is the name of that type. (Violated for every type from gx:MultiTrack on: another type's name is returned, or memory past the table is read.)

Code: `dom/kml22.h: kmlDomTypeToString, KmlDomType`. Model: `XsdModel.v`. Theorems in `XsdProps.v`; status: proved.

* `type_string_correct_below` – The debug name of a type is its enumerator for the types before gx:MultiTrack.
* `type_string_wrong_refuted` – Refuted from there on: every later type gets another type's name or reads past the table.
* `type_string_out_of_bounds_refuted`
* example `type_string_nonvacuous`

Note: Part of the property is false of the code: see the _refuted theorems; the others state what does hold.

### C56 Text content survives pretty printing

The text of an element that is written as element content (Snippet, linkSnippet, SimpleData) is the same after the element is pretty-printed and parsed again. (Violated for every text: white space is added.)

Code: `dom/xml_serializer.h: XmlSerializer::SaveContent, EmitStart, End`; `dom/snippet.cc: SnippetCommon::Serialize, AddElement`; `dom/extendeddata.cc: SimpleData::Serialize`. Model: `SerializerModel.v`. Theorems in `SerializerProps.v`; status: proved.

* `pretty_text_content_refuted` – Refuted: pretty-printed Snippet text never reads back as it was: a line break and the indentation of the end tag are added to it, for every text.

Note: Part of the property is false of the code: see the _refuted theorems; the others state what does hold.

### C57 Parsing never crashes

Parsing any document ends normally, with a root element or without; no empty stack is read and no null element is dereferenced. (Violated for documents with a KML 2.1 style Schema whose name is that of another element, or with markup inside its fields; and for ParseAtom with an unknown root or a document that is too deep, where a parser that was never set is stopped.)

Code: `dom/kml_handler.cc: StartElement, EndElement, CharData, HandleOldSchemaEndElement, HandleOldSchemaParentEndElement`. Model: `HandlerModel.v`, `NsModel.v`. Theorems in `HandlerProps.v`, `NsProps.v`; status: proved.

* `parse_never_crashes` – Parsing is free of undefined behaviour for every document without an old-style Schema and with fewer than 2147483000 elements, whatever the observers do.
* example `parse_never_crashes_witness`
* `old_schema_crash_refuted` – Violated with an old-style Schema: a null pointer is dereferenced.
* `parse_atom_root_refuted` – ParseAtom has undefined behaviour for every document whose root is not an element of KML or Atom: it stops a parser which was never set.
* `parse_atom_deep_refuted` – The same for documents that are too deep, such as 101 folders in each other.
* example `parse_atom_unknown_root`

Note: Part of the property is false of the code: see the _refuted theorems; the others state what does hold.

### C58 Attributes of simple elements

Attributes written on simple elements (name, visibility, ...) have no effect on the parse result: removing them all from a document gives the same tree.

Code: `dom/kml_handler.cc: StartElement`. Model: `HandlerModel.v`. Theorems in `HandlerProps.v`; status: proved.

* `simple_attributes_dropped` – Attributes of simple elements have no effect: the document with them removed gives the same result.
* example `simple_attributes_example`

### C59 gx:coord and gx:angles survive serialize and parse

The text written for a gx:coord or gx:angles value is parsed back to the same three numbers. (Violated for hand-written text with two consecutive spaces or none at all, where an uninitialized number is read.)

Code: `dom/geometry.cc: GxTrack::Parse`; `dom/serializer.cc: SaveSimpleVec3`; `base/string_util.cc: FromString`. Model: `CoordModel.v`. Theorems in `CoordProps.v`; status: proved.

* `gx_coord_round_trip` – The text written for a gx:coord or gx:angles is read back to the same three numbers.
* `gx_coord_spacing_refuted` – Refuted: an extra space in a gx:coord (or an empty one) reads an uninitialized number.
* `gx_coord_extra_ignored` – A fourth number is read and dropped, whatever follows it is not read.
* example `gx_coord_extra_sample`
* `gx_coord_trailing_space_refuted` – Refuted: a space after the third number makes the reader look at a fourth, which is not there: an uninitialized number is read, for all three numbers.
* example `gx_coord_trailing_space_sample`

Note: Part of the property is false of the code: see the _refuted theorems; the others state what does hold.

### C60 Documents survive reading and writing

Reading a KML text, writing the elements pretty printed (or raw) and reading the result gives the same elements, so that writing twice gives the same text. Known exceptions are excluded by explicit conditions: markup in simple elements, own text of Snippet and SimpleData under indentation, CDATA marks in links, locality names, attribute values that need escaping.

Code: `dom/parser.cc: Parser::Parse`; `dom/xml_serializer.cc: SerializePretty, SerializeRaw`; `dom/element.cc: Element::AddElement, SerializeUnknown`. Model: `DomModel.v`. Theorems in `DomProps.v`, `NumberDomProps.v`; status: proved.

* `read_write_read` – For every text that is a well-formed document (at most 100 levels, no old-style Schema, no description inside foreign markup, no attribute named xmlns:xmlns): the elements it gives are given again by the text they are written as, provided they are intact ([intact]: nothing but text in simple elements and coordinates, links without CDATA marks, no locality name, foreign markup that reads as itself, own text of Snippet and SimpleData reads as itself) and the written text is readable.
* `read_pretty_read` – For pretty printing coordinates may have any number of tuples.
* `write_read` – Not only what was parsed: any element that satisfies the conditions is read back.
* `parsed_well_formed` – Elements that come from a text are always well formed: each child is where AddElement would put it, single-valued children occur once, and printed values read as themselves.
* example `sample_pretty`
* `pretty_is_stable` – Once written, writing again what is read gives the same text.
* `document_read_again` – A document is read again from the text it is written as.
* example `sample64_hypotheses`
* example `sample64_text`
* `document_text_stable` – Once written, a document stays the same text however often it is read and written.
* `document_well_formed` – What was read is well formed, with no assumption on numbers.

### C61 No value is dropped when writing

Every child value a class accepts is written. (Violated: the LocalityName of xal:Locality is read but never written; it is the only one.)

Code: `dom/xal.cc: XalLocality::Serialize`. Model: `DomModel.v`. Theorems in `DomProps.v`; status: proved.

* `locality_name_lost_refuted` – The name of an xal:Locality is read but not written.
* `every_other_slot_written` – It is the only value no class writes.

Note: Part of the property is false of the code: see the _refuted theorems; the others state what does hold.

### C62 Unknown enumeration values survive

An enumeration value the schema does not know is kept when the document is written. (Violated: it is dropped, along with a value given before.)

Code: `dom/element.cc: Element::SetEnum`; `dom/element.h: Field::SetEnum`. Model: `DomModel.v`. Theorems in `DomProps.v`; status: proved.

* `enum_value_lost_refuted` – An enumeration value that is not in the schema is dropped, and takes a value given before with it.
* `enum_value_kept` – Exactly the values of the schema are kept.

Note: Part of the property is false of the code: see the _refuted theorems; the others state what does hold.

### C63 Markup and attributes inside simple elements survive

Foreign markup and attributes in simple elements and coordinates are kept as they are in complex elements. (Violated: they are lost.)

Code: `dom/element.cc: Field::Serialize`; `dom/kml_handler.cc: KmlHandler::StartElement, EndElement`. Model: `DomModel.v`. Theorems in `DomProps.v`; status: proved.

* `simple_markup_lost_refuted` – Markup inside of a simple element is lost.
* `simple_attributes_lost_refuted` – So are attributes of simple elements and of coordinates.

Note: Part of the property is false of the code: see the _refuted theorems; the others state what does hold.

### C64 Links are read as written

The text of an href or targetHref is kept exactly, and one literal pair of CDATA marks around it is removed. (Violated for nested marks: every reading removes another pair.)

Code: `dom/link.cc: BasicLink::AddElement`. Model: `DomModel.v`. Theorems in `DomProps.v`; status: proved.

* `link_marks_drift_refuted` – A link whose text carries CDATA marks inside its CDATA section loses one pair of marks each time it is read: the written text does not read as the same elements.
* `link_without_marks_kept` – Without the marks the link is kept.
* `link_unmarked_once`

Note: Part of the property is false of the code: see the _refuted theorems; the others state what does hold.

### C65 Repeated single-valued children

If a single-valued child is given more than once the last one counts. (Violated for blank numbers: the value before is kept.)

Code: `dom/element.h: SetComplexChild`; `dom/element.cc: Field::SetDouble, SetInt`. Model: `DomModel.v`. Theorems in `DomProps.v`; status: proved.

* `last_child_wins` – A single-valued child given twice: the last one counts, for element children.
* `last_value_wins` – For simple children the last one counts unless it is a number and blank.
* `blank_number_keeps_previous`
* `last_value_wins_refuted`

Note: Part of the property is false of the code: see the _refuted theorems; the others state what does hold.

### C66 Misplaced elements are kept

A known element in a parent that does not accept it is kept and written after the parent's own children. (Violated for children of Snippet, linkSnippet, coordinates.)

Code: `dom/element.cc: Element::AddElement, SerializeUnknown`; `dom/snippet.cc: SnippetCommon::AddElement`. Model: `DomModel.v`. Theorems in `DomProps.v`; status: proved.

* `child_is_kept` – An element of a wrong place is kept and written after all others; no known element is lost by AddElement except in Snippet, linkSnippet, coordinates and SimpleData.
* `snippet_child_lost_refuted`

Note: Part of the property is false of the code: see the _refuted theorems; the others state what does hold.

### C67 Archive URLs are fetched whole

The URL fetched for an archive is the URL of the link without its fragment. (Violated: query and user are dropped, so links to an archive that differ only in their query are the same archive to the cache, and a URL without a host loses its scheme.)

Code: `engine/kml_uri.cc: GetFetchableUri, KmlUri::CreateRelative`. Model: `UriModel.v`. Theorems in `UriProps.v`; status: proved.

* `fetchable_plain` – A URI with scheme and host but no user and no query is fetched whole, less its fragment.
* `fetchable_ignores` – The query and the user never matter.
* `archive_query_lost_refuted` – So two links to archives that differ only in the query (or the user) are the same archive to the cache: whatever the resolver does, the archive URL and the path inside agree.
* example `archive_query_lost_example`
* `fetchable_no_host_refuted` – A local archive whose URI has no host: the scheme and the leading slash are lost.

Note: Part of the property is false of the code: see the _refuted theorems; the others state what does hold.

### C68 Fetching through archives terminates

A file is looked for in the archive first and beside the archive otherwise, and asking for a file that exists in neither fails. (Violated: asking for a missing file of an existing archive by its absolute URL recurses without end.)

Code: `engine/kmz_cache.cc: KmzCache::DoFetchAndReturnUrl`; `engine/kml_cache.cc: KmlCache::FetchKmlAbsolute`. Model: `KmzModel.v`. Theorems in `KmzProps.v`; status: proved.

* `fetch_inside_first` – A file in the archive wins over a file beside the archive.
* `fetch_plain` – A URL that is not in an archive is fetched as it is.
* `fetch_beside` – A file not in the archive is looked for beside the archive.
* `fetch_archive_document` – A URL of an archive as such is for the KML document in it, and the URL reported is that of the document.
* `fetch_missing_absolute_refuted` – Asking for a missing file of an existing archive by its absolute URL recurses for ever, whatever the base: the fallback resolves the same absolute target again.
* example `fetch_missing_absolute_example` – The hypotheses hold, for a URL whose archive has only a document.

Note: Part of the property is false of the code: see the _refuted theorems; the others state what does hold.

### C69 Archives give back what was put in

A file added to an archive under an accepted new name is read back unchanged and the other files are unaffected; names that leave the archive's directory are refused. (Violated: empty files cannot be read, a second file of a name is never seen, and the name test both lets parent steps through and refuses harmless names.)

Code: `base/zip_file.cc: ZipFile::GetEntry, ZipFile::AddEntry`; `engine/kmz_file.cc: KmzFile::ReadFile, KmzFile::AddFile`. Model: `KmzModel.v`. Theorems in `KmzProps.v`; status: proved.

* `archive_read_back` – A new name with non-empty contents within the size limit is read back, and the other entries are as before.
* example `archive_read_back_example`
* `archive_empty_file_refuted` – An empty file is accepted and listed, but cannot be read.
* `archive_same_name_refuted` – A second file of the same name is accepted but never read.
* `archive_name_test_refuted` – The test of the name lets names through that leave the archive's directory, and refuses names that do not.

Note: Part of the property is false of the code: see the _refuted theorems; the others state what does hold.

### C70 Packing a document with its files

A packed archive holds the document first and each linked readable file once, under its normalized name, and the document read from it is the document packed. (Violated for a linked file named doc.kml.)

Code: `engine/kmz_file.cc: KmzFile::CreateFromElement, KmzFile::AddFileList, KmzFile::ReadKml`. Model: `KmzModel.v`. Theorems in `KmzProps.v`; status: proved.

* `pack_error_count` – The number of errors reported: the references whose path cannot be normalized or starts with two dots, and the different names which cannot be read or not be stored.
* `kmz_packed` – A packed archive is the document and then the linked files, each at most once.
* `kmz_files_once` – The linked files have distinct names, and each is the contents read for that name.
* `kmz_document` – The document of a packed archive is the document that was packed.
* `kmz_doc_link_refuted` – A linked file called doc.kml is packed too, but cannot be read: its name is taken.

Note: Part of the property is false of the code: see the _refuted theorems; the others state what does hold.

### C71 Extended data values

A value added to a feature's extended data under a new name is read back and leaves other values alone; setting a value replaces only the value of that name. (Violated: setting erases every other value, and adding under a name already used keeps returning the old value.)

Code: `convenience/convenience.cc: AddExtendedDataValue, GetExtendedDataValue, SetExtendedDataValue`. Model: `FeatureListModel.v`. Theorems in `FeatureListProps.v`; status: proved.

* `ext_add_new` – Extended data values: a value added under a new name is read back and leaves the others.
* `ext_add_other`
* `ext_add_again_refuted` – Adding under a name already used keeps returning the old value.
* `ext_set_read` – Setting a value is read back, and erases every other value.
* `ext_set_erases_refuted`
* example `ext_sample`

Note: Part of the property is false of the code: see the _refuted theorems; the others state what does hold.

### C72 XSD declarations are all read

Reading a schema document finds exactly the global elements and the types it declares, each type with the local elements and base given inside it, the last declaration of a name winning. (Violated: an anonymous type, a type nested in another type, or an element at the root makes the reader dereference a null pointer or read an empty stack.)

Code: `xsd/xsd_file.cc: XsdFile::CreateFromParse`; `xsd/xsd_handler.cc: XsdHandler::StartElement, XsdHandler::EndElement`. Model: `XsdFileModel.v`. Theorems in `XsdFileProps.v`; status: proved.

* `xsd_parse_correct` – Reading a schema document whose type definitions are named and not nested finds exactly the declared elements and types, the last declaration of a name winning.
* `xsd_anonymous_type_refuted` – An anonymous type (common in schemas), a type inside of a type and an element at the root are undefined behaviour.
* `xsd_nested_type_refuted`
* `xsd_root_element_refuted`
* example `xsd_parse_example`
* `children_correct` – The children of an element: those in the sequence of its type, in order; a reference stands for the global element of that name, and for nothing if it is not to the target namespace or there is no such element.
* `children_of_base_refuted` – The children of the base types are not among them.
* `element_declaration` – What an element tag with a name declares.
* `reference_declaration` – What an element tag without a name declares: a reference if it has a ref, nothing otherwise.
* example `reference_sample`
* `hierarchy_no_schema` – Without a schema element that names a target namespace no hierarchy is found.
* `search_no_schema`
* `primitive_base_refuted` – A primitive type is not always without a base: in a schema whose own prefix is xsd a complex type called primitive is the base of every primitive type.
* example `children_sample`

Note: Part of the property is false of the code: see the _refuted theorems; the others state what does hold.

### C73 XSD element ids are three ordered ranges

The element id vector lists first the abstract, then the complex, then the simple elements, each group in name order and no name twice, and the two reported offsets are where the groups begin. (Not every element gets an id: a concrete element whose type is not found is left out.)

Code: `xsd/xsd_file.cc: XsdFile::GenerateElementIdVector, XsdFile::GetAbstractElements, XsdFile::GetComplexElements, XsdFile::GetSimpleElements`. Model: `XsdFileModel.v`. Theorems in `XsdFileProps.v`; status: proved.

* `element_id_vector_correct` – Element ids: the vector lists the abstract, the complex and the simple elements in three ranges, each in name order, none twice.
* `element_id_all_refuted` – Not every element has an id: a concrete element whose type is not in the file is in no range.
* example `element_id_example`

Note: Part of the property is false of the code: see the _refuted theorems; the others state what does hold.

### C74 Circles are evenly spread

A circle made of n segments has n vertices spread evenly around the centre. (Violated: vertex i is placed at i degrees, so fewer than 360 segments give an arc and more go around again.)

Code: `convenience/convenience.cc: CreateCoordinatesCircle`. Model: `SimplifyModel.v`. Theorems in `SimplifyProps.v`; status: proved.

* `circle_vertices` – The vertices of a circle are computed for the radials 0, 1, 2, ... degrees.
* `circle_even_refuted` – They are spread evenly over the circle (vertex i at 360 i / n degrees) only for n = 360 (or at most one vertex).
* `circle_covers_refuted` – In particular a circle of few segments stays within a few degrees of due north.
* example `simplify_example`

Note: Part of the property is false of the code: see the _refuted theorems; the others state what does hold.

### C75 Pipe-separated placemark files

Reading a file of |-separated lines gives one placemark per line of at least five fields, in order, with score, latitude, longitude, name, description and style taken from the fields in that order. (Violated when the file has an empty line - the rest is dropped - or a coordinate is not a number - it becomes zero.)

Code: `convenience/csv_file.cc: CsvFile::ParseCsvLine, CsvFile::ParseCsvFile`. Model: `CsvModel.v`. Theorems in `CsvProps.v`; status: proved.

* `csv_file_correct` – A file of |-separated lines: each line of at least five fields is one feature, with its fields in the order score, latitude, longitude, name, description, style.
* `csv_file_empty_line_refuted` – Everything after an empty line is ignored, and a line with a missing number is placed at zero.
* `csv_file_bad_number_refuted`

Note: Part of the property is false of the code: see the _refuted theorems; the others state what does hold.

### C76 Entities of a feature

The entity map of a feature holds its id, targetId, name, address, Snippet and description, each Data under its name (and name/displayName), each SimpleData under its schema's name and its own, and nothing else; of several entries of one name the last one read counts. (Violated for the feature's own name when a Data is called name.)

Code: `engine/entity_mapper.cc: EntityMapper::GetEntityFields`; `engine/entity_mapper.h: EntityMapper`. Model: `EntityModel.v`. Theorems in `EntityProps.v`; status: proved.

* `entity_map_correct` – The entities of a feature: its own attributes and fields, its Data, the SimpleData of its SchemaData and the display names; of several entries of one name the last one read counts.
* `entity_map_distinct` – In particular with distinct names every entry can be used, and nothing else.
* `entity_own_name_refuted` – The feature's own name is hidden by a Data of the name name.

Note: Part of the property is false of the code: see the _refuted theorems; the others state what does hold.

### C77 Balloon text

The balloon of a feature is its BalloonStyle text with every entity reference replaced by the entity's value at once, or by default the name as a heading, the description with its entities replaced, and a table with a row for every labelled value. (Violated: table cells are not closed.)

Code: `engine/feature_balloon.cc: CreateBalloonText`; `engine/entity_mapper.cc: CreateExpandedEntities`. Model: `EntityModel.v`. Theorems in `EntityProps.v`; status: proved.

* `balloon_total` – The balloon of a feature without balloon style: the name as a heading, the description with its entities replaced, and a table of the labelled values.
* `balloon_style_text` – The entries the template refers to have values that are not shorter than the reference and do not contain $ or the name; nothing is asked of other entries but that their names have no bracket.
* `balloon_default`
* example `balloon_example`
* example `balloon_example_fillable`
* `balloon_cells_refuted` – The cells of the table are not closed: every row opens two and closes one.

Note: Part of the property is false of the code: see the _refuted theorems; the others state what does hold.

### C78 Shared styles of a file

A parsed file gives for a style name the last Style or StyleMap placed directly in a Document with that id, and nothing exactly when there is none. (Violated for the empty name: a style without an id is found under it.)

Code: `engine/shared_style_parser_observer.h: SharedStyleParserObserver::AddChild`; `engine/kml_file.cc: KmlFile::GetSharedStyleById`. Model: `FileModel.v`. Theorems in `FileProps.v`; status: proved.

* `shared_style_correct` – A file gives for a name the last style element placed directly in a Document with that id (children before parents), and nothing exactly when there is none.
* example `shared_style_sample` – Non-vacuity, and C78: a style without an id is kept as well, under the empty name.
* `unnamed_shared_style_refuted`

Note: Part of the property is false of the code: see the _refuted theorems; the others state what does hold.

### C79 Links of a document

The links reported for a document are exactly the contents of its href and styleUrl elements, targetHref in an Alias and the schemaUrl of SchemaData, and the relative links are those with a path and without scheme and host; the elements that can have a link are listed in document order.

Code: `engine/get_links.h: GetLinksParserObserver`; `engine/get_links.cc: GetLinks, GetRelativeLinks`; `engine/get_link_parents.cc: IsLinkParent`. Model: `FileModel.v`. Theorems in `FileProps.v`; status: proved.

* `get_links_correct` – The links of a document are exactly the contents of its href and styleUrl elements, of targetHref in an Alias, and the schemaUrl of SchemaData, each as often as it occurs, children before parents; the relative links are those which have a path but neither a scheme nor a host.
* `get_relative_links_correct`
* example `links_sample`
* `link_parents_are` – The elements listed as parents of links are those whose class has a Link or Icon child, and the ItemIcon, which has its href itself.
* `link_parents_correct` – The elements which can have a link or icon are listed in document order.

### C80 Renaming ids

Renaming the ids of a mapped tree gives every mapped element the new name of its id or takes the id away when there is none, changes nothing else, returns how many ids were taken away, and reports under each new name an element that got it.

Code: `engine/id_mapper.cc: RemapIds, MapIds`. Model: `IdModel.v`. Theorems in `IdProps.v`; status: proved.

* `remap_ids_correct` – Renaming the ids of a mapped tree: an element in the map gets the new name of its id, or loses the id when there is no new name; other elements and everything but ids are unchanged; the result counts the ids taken away, and the new map gives for a name the last element (in the order of the old ids) which got it.
* example `remap_sample`

### C81 Update change merges into the addressed object

A Change gives the object with the target id every value, attribute and coordinate list the Change carries, leaves its other values, leaves no targetId on it, and does not touch any other object; a Change whose target is unknown (or has no new name in the id map) does nothing.

Code: `engine/update_processor.cc: UpdateProcessor::ProcessUpdateChange, GetTargetId`; `engine/merge.cc: MergeElements`. Model: `UpdateModel.v`. Theorems in `UpdateProps.v`; status: proved.

* `change_correct` – A change of the object [t] with the target id: it has the values, attributes and coordinates of [s] where [s] has them and its own elsewhere, and no targetId; elements which are not in [t] say what they said.
* `change_unknown` – Nothing happens without a target id, without a new name for it, or with an unknown one.
* `target_id_spec` – The id asked for is the targetId, or what the given map has for it; an id not in the map is not looked for.
* `update_not_in_map`
* example `change_sample`

### C82 Update create appends copies to the addressed container

A Create appends copies of its features, in order, to the features of the container with the target id and leaves everything else as it was. (Features made this way cannot be addressed by a later operation: they are not known by their id.)

Code: `engine/update_processor.cc: UpdateProcessor::ProcessUpdateCreate, CopyFeatures`; `engine/clone.cc: Clone`. Model: `UpdateModel.v`. Theorems in `UpdateProps.v`; status: proved.

* `create_correct` – Creating in the container [t] with the target id: it has its own features and then those of [s], all else of it and all other elements are as they were.
* example `create_sample`
* `created_unknown_refuted` – A feature made by an update is not known by its id: a later operation on it does nothing.

Note: Part of the property is false of the code: see the _refuted theorems; the others state what does hold.

### C83 Styles of other files

Resolving a style map of another file gives the same style as resolving it inside of that file: references in its pairs refer to that file. (Violated: a reference without a path is looked up in the file the resolution started from.) A Style of another file, and a style map of which every reference means the same in both files, resolves as in its own file. (Also violated: relative links in such a style, as of its icon, are copied as they are and lead elsewhere.)

Code: `engine/style_merger.cc: StyleMerger::MergeStyleUrl`; `engine/style_resolver.cc: StyleResolver::CreateResolvedStyle`. Model: `StyleModel.v`. Theorems in `RemoteStyleProps.v`, `StyleProps.v`; status: proved.

* `remote_style_same` – A style URL into another file resolves as the style of that file does in that file, if every style URL it comes across there means the same in both files; [fetch] and [fetch'] are how each of the two files fetches others.
* `remote_style_alone` – In particular a Style of another file, which comes across no style URL, always does.
* example `remote_sample` – Hypotheses met: a style and a style map of another file, which refers to a style of a third one.
* `remote_icon_refuted` – Refuted for links in a style: the link of an icon is copied as it is, though it is relative to the file the style is in, and so leads elsewhere.
* `remote_style_map_refuted` – A style map of another file whose pair refers to a style of its own file: the style of the file at hand is used, here none.

Note: Part of the property is false of the code: see the _refuted theorems; the others state what does hold.

### C84 A written file declares the namespaces of its elements

When a KML file is written, the root declares the namespace of every element in it: the prefix of every complex element and the KML namespace as the default; nothing else of the root or its contents changes, unused namespaces are not declared, and writing twice gives the same text. (Violated: a prefix used by simple elements or misplaced elements only is not declared; a file of another KML namespace gets the 2.2 namespace; a file without an element is reported as written.)

Code: `engine/find_xml_namespaces.cc: FindXmlNamespaces, FindAndInsertXmlNamespaces`; `engine/kml_file.cc: KmlFile::SerializeToString, KmlFile::SerializeToOstream`; `base/xml_namespaces.cc: FindXmlNamespaceAndPrefix`; `dom/element.cc: Element::MergeXmlns`. Model: `NamespaceModel.v`. Theorems in `NamespaceProps.v`; status: proved.

* `namespaces_declared` – The root of a written file declares the prefix of every complex element in it, with the namespace of the table; and the namespace of KML as the default namespace if there is an element of KML, which are all those without a prefix but positions such as hotSpot and the boundaries of a Polygon.
* `namespaces_change_root_only` – Nothing but the namespace attributes of the root changes: its contents, and every attribute which is not of a namespace of the table.
* `namespaces_only_used` – A namespace is only declared if an element of it is there; otherwise what the root said before is kept.
* `namespaces_once` – Writing again changes nothing.
* `serialize_file_twice`
* example `namespaces_sample`
* `simple_prefix_undeclared_refuted` – Simple elements are not looked at: a file which uses only a simple element of a namespace has its prefix undeclared.
* `misplaced_prefix_undeclared_refuted` – Nor are misplaced elements.
* `namespace_replaced_refuted` – A file in another namespace changes its namespace when it is written.
* `empty_file_refuted` – A file without an element: SerializeToString reports success for a text which is only the header.
* `namespace_table` – The table of known namespaces has one entry for each id from 1 on, with distinct prefixes and distinct URIs; so an id determines a prefix and a URI, and either of them determines the id.
* `stream_text` – Writing a file to a stream writes what SerializeToString gives.
* `string_text`

Note: Part of the property is false of the code: see the _refuted theorems; the others state what does hold.

### C85 Checking the links of an archive

KmzCheckLinks reports exactly the links of the archive's document that have neither a scheme nor a host and whose path is not a readable file of the archive, in document order; it returns true exactly when there is no such link, and false without a report when there is no document or it does not parse. An archive packed with normalized links to readable files passes the check. (References within the document such as #id are reported as missing; a file packed under its normalized name is reported missing under the name used in the document.)

Code: `convenience/kmz_check_links.cc: KmzCheckLinks`; `engine/href.h: IsRelative`; `engine/get_links.cc: GetLinks`; `engine/kmz_file.cc: ReadKml, ReadFile, CreateFromElement`. Model: `LinkCheckModel.v`. Theorems in `LinkCheckProps.v`; status: proved.

* `links_checked` – The links reported missing are exactly the links of the document, in its order, which have neither a scheme nor a host and whose path names no readable file of the archive; the check succeeds exactly if there are none.
* `links_check_no_document` – Without a document, or with one which cannot be parsed, the check fails and reports no link.
* example `links_check_sample`
* `own_reference_missing_refuted` – A reference within the document, such as a styleUrl of #id, is reported as a missing file, whatever the document contains.
* example `own_reference_sample`
* `packed_archive_checked` – An archive packed with the files its document links to passes the check, if every link without scheme and host has a path, is already normalized, does not lead out of the archive, is not the name of the document itself and names a file which can be read.
* example `packed_archive_sample`
* `packed_archive_refuted` – A link with a path which is not normalized is stored under another name when it is packed, and then reported missing although the file is there; [normalize] is any normalization which removes the leading dot segment of this path.

Note: Part of the property is false of the code: see the _refuted theorems; the others state what does hold.

### C86 Namespace aware parsing does not depend on prefixes

ParseAtom gives the same elements for all documents that mean the same, whatever prefixes and declarations they use: elements of the Atom namespace become atom elements, elements of the KML namespace KML elements, elements of any other namespace stay unknown; a document with an undeclared prefix is rejected. ParseNS gives every element by its local name. A table of namespaces made from attributes knows exactly what they declare. (Violated: ParseAtom has undefined behaviour, stopping an uninitialised parser, for documents whose root is neither a KML nor an Atom element or that are more than 100 elements deep; ParseNS takes elements of any namespace for KML and does not know the gx and atom elements that Parse knows; Parse goes by the literal prefix; unknown elements kept by ParseAtom are written as text that is not XML.)

Code: `dom/parser.cc: Parser::ParseNS, Parser::ParseAtom`; `base/expat_handler_ns.cc: ExpatHandlerNs::TranslatePrefixedName`; `base/xmlns.h: Xmlns`; `dom/kml_handler_ns.cc: KmlHandlerNS::StartElement`. Model: `NsModel.v`. Theorems in `NsProps.v`; status: proved.

* `xmlns_table_correct` – A table of namespaces made of attributes knows exactly the namespaces they declare: the default, the namespace of a prefix and a prefix of a namespace; there is no table exactly when nothing is declared.
* example `xmlns_table_sample`
* `translate_correct` – The name the handler gets for an element of a namespace: the local name for the default namespace of the table, the table's prefix and the local name for another one it knows, and the name as expat reports it for all others.
* `translate_plain`
* `parse_atom_correct` – ParseAtom, whatever prefixes a document uses: it gives the element that Parse gives for the document in which elements of the KML namespace and of none have their local name, those of the Atom namespace the prefix atom, and the others the name as expat reports it; if it gives none, Parse gives none.
* `parse_atom_root_refuted` – ParseAtom has undefined behaviour for every document whose root is not an element of KML or Atom: it stops a parser which was never set.
* `parse_atom_deep_refuted` – The same for documents that are too deep, such as 101 folders in each other.
* example `parse_atom_unknown_root`
* `parse_ns_correct` – ParseNS: every element has its local name, whatever its namespace.
* `prefixes_irrelevant` – Documents which differ in their prefixes and declarations only are parsed alike, and a document with an undeclared prefix is not parsed.
* `atom_foreign_unknown` – An element of any other namespace is not taken for one of KML or Atom by ParseAtom, wherever it is.
* example `atom_sample` – ** Samples
* `parse_atom_text_correct` – The same for texts: the namespaces and names of a text that is XML have no bar.
* `parse_ns_text_correct`
* `ns_foreign_taken_refuted` – ParseNS takes an element of any namespace for the KML element with this local name.
* `ns_gx_lost_refuted` – ParseNS does not know the elements of the gx and atom namespaces, which Parse knows; a child is kept as markup without its prefix.
* `parse_by_prefix_refuted` – Parse goes by the literal prefix: KML elements with a prefix are not known, and an element with the prefix gx is taken for one of the extensions whatever the prefix means.
* `atom_foreign_written_refuted` – An element of another namespace in a feed read by ParseAtom is kept under the name expat reports, so the feed is then written as a text which is not XML.

Note: Part of the property is false of the code: see the _refuted theorems; the others state what does hold.

### C87 Atom feeds and the features in them

The URL of a relation of an Atom element (FindRelUrl) is the href of the first link which has an href and whose rel ends with the given text, and there is none if no link qualifies; likewise FindLink with a mime type, FindCategory with a scheme, FindEntryByTitle with a title. GetNextFeed gives exactly the feed parsed from the contents of the URL of the relation next. The entry made for a feature has its name as title, its description as summary and gives the feature back. GetFeedFeatures appends to a folder or document the features of the entries in order, each with a link to the URL of the relation self of its entry, and changes nothing else of the container. The resource id of an entry is the text of its first unknown element named resourceId.

Code: `convenience/atom_util.cc:CreateBasicEntry`; `convenience/atom_util.cc:CreateEntryForFeature`; `convenience/atom_util.cc:FindRelUrl`; `convenience/atom_util.cc:FindLink`; `convenience/atom_util.cc:FindCategory`; `convenience/atom_util.cc:GetEntryFeature`; `convenience/atom_util.cc:CloneEntryFeature`; `convenience/atom_util.cc:GetFeedFeatures`; `convenience/atom_util.cc:FindEntryByTitle`; `convenience/atom_util.cc:GetGdResourceId`; `convenience/atom_util.cc:GetNextFeed`. Model: `AtomModel.v`. Theorems in `AtomProps.v`; status: proved.

* `rel_url_correct` – The URL of a relation is the href of the first link which has an href and whose rel ends with it.
* `link_correct` – The link of a relation and a mime type: the first with this type whose rel ends with the relation; a link without a type has the empty one.
* `category_correct`
* `entry_by_title_correct` – The entry with a title is the first one; an entry without a title has the empty one.
* `next_feed_correct` – Following the next link: what ParseAtom gives for the contents of the URL of the relation next, if it is a feed.
* `entry_for_feature_correct` – The entry made for a feature has its name as title and its description as summary, and gives the feature back.
* `feed_features_correct` – The features of the entries are appended to the container in the order of the entries, nothing else of it changes; the entries keep their other contents.
* `resource_id_correct` – The resource id of an entry is the text of its first unknown element called resourceId, if the unknown elements of the entry are elements with text only.
* example `resource_id_sample`
* `resource_id_refuted` – The resource id is not found if its element has an attribute, or if the entry was read by Parse; an element called resourceId of another namespace is taken for it.
* example `feed_sample` – ** Samples and violations
* example `entry_written_sample` – An entry made for a feature, written and read again, gives the feature.
* `feed_changed_refuted` – The features a feed gives are not copies: the feed itself is changed.
* `feed_twice_refuted` – A second container gets nothing: the features have a parent then.
* `container_link_refuted` – The container's link is not set to that of the feed, which has one.
* `entry_feature_second_refuted` – A feature which is not the first KML element of the content is not found.
* `basic_link_written` – The basic link has exactly the given href, rel and type, the basic entry exactly the given title and summary.
* `basic_entry_written`

Note: Part of the property is false of the code: see the _refuted theorems; the others state what does hold.

### C88 Parsing from a stream

Reading a document from a stream (KmlStream) gives the same root as parsing the same bytes with Parse, however the bytes are cut into blocks, however the XML parser cuts character data into pieces and whichever elements are written as empty-element tags; a stream whose contents are not a well-formed document gives nothing. Parse gives a root and no error, or no root and an error. (Violated: a stream that is not good gives a result without root; a read error gives the part read so far as if it was a document; the empty text gives no root and no error.)

Code: `engine/kml_stream.cc:KmlStream::ParseFromIstream`; `base/expat_parser.cc:ExpatParser::ParseInternalBuffer`; `base/expat_parser.cc:ExpatParser::_ParseString`; `dom/kml_handler.cc:KmlHandler::CharData`; `dom/kml_handler.cc:KmlHandler::PopRoot`. Model: `StreamModel.v`. Theorems in `StreamProps.v`; status: proved.

* `pieces_irrelevant` – How the parser cuts the character data into pieces, and which elements are written as empty-element tags, makes no difference.
* `stream_correct` – Reading a document from an intact stream gives the same as parsing it as a text, however it is cut into blocks.
* `stream_malformed` – Nothing comes from a stream whose contents are not a well-formed document.
* `stream_blocks` – The same for the blocks the library reads.
* `string_correct` – Parsing a text: the root and no error, or no root and an error.
* example `conforming_sample` – There are conforming parsers: one which reports everything at the end.
* example `stream_sample`
* `stream_not_good_refuted` – A stream which is not good at the beginning gives a KmlStream without a root, not NULL.
* `stream_broken_refuted` – After a failing read the part read so far is taken for a document, if expat has reported it.
* `empty_text_refuted` – The empty text is not a document, but parsing it reports no error, as expat is not told that it is complete.

Note: Part of the property is false of the code: see the _refuted theorems; the others state what does hold.

### C89 Instances of old-style schemas

With the observer for old-style schemas, an unknown element of a document or folder (other than the root) named like a schema, without attributes, without escaped characters and without an element of the same name in it, is added to the features as the Placemark parsed from the same contents; elements of other names and other parts of the container are left alone. (Violated otherwise: with attributes or escaped characters nothing is added, an element of the same name inside cuts the contents, and the fields do not become extended data as described.)

Code: `engine/parse_old_schema.cc:ConvertOldSchema`; `engine/parse_old_schema.cc:ParseOldSchema`; `engine/old_schema_parser_observer.h:OldSchemaParserObserver::AddChild`. Model: `OldSchemaModel.v`. Theorems in `OldSchemaProps.v`; status: proved.

* `old_schema_converted` – An unknown element named like a schema, without attributes and with nothing of the same name in it, becomes a Placemark with the same contents.
* `old_schema_other` – Elements of other names are left alone.
* `old_schema_parsed` – The Placemark of an instance is the one parsed from a Placemark element with the same contents.
* `instances_added` – A document or folder that becomes a child gets the Placemarks of its unknown elements, in their order, after its features; nothing else of it changes.
* `instances_elsewhere` – Other elements are not changed.
* example `old_schema_sample` – ** Samples and violations
* example `instances_sample`
* `old_schema_not_converted_refuted` – Not converted: instances with attributes or with contents that need escaping. (An instance written as an empty-element tag is converted.)
* `old_schema_nested_refuted` – An element of the same name inside of an instance ends it: the instance is lost.
* `old_schema_data_refuted` – The fields of the schema do not become extended data, contrary to the description of the conversion.
* `old_schema_placemarks` – Nothing but Placemarks comes from it.

Note: Part of the property is false of the code: see the _refuted theorems; the others state what does hold.

### C90 Headers, requests and login of the HTTP client

Looking up a header gives the value of the first header of exactly this name; adding a header makes it visible if there was none of that name and changes no other. The text of a request is the line with method and URI followed by one line per header, those of the client before those of the request, and exists exactly for the methods of RFC 2616. After a successful login the token is the text after the first Auth= without the final newline, and it is sent with every later request; otherwise nothing changes; credentials without ampersand give different requests. (Violated: no method is undefined behaviour; further lines become part of the token; unescaped ampersands confuse email and password; a second login leaves the old token first; names of headers are compared with case.)

Code: `convenience/http_client.cc:HttpClient::Login`; `convenience/http_client.cc:HttpClient::SendRequest`; `convenience/http_client.cc:HttpClient::FindHeader`; `convenience/http_client.cc:HttpClient::PushHeader`; `convenience/http_client.cc:HttpClient::AppendHeaders`; `convenience/http_client.cc:HttpMethod::GetMethodString`. Model: `HttpModel.v`. Theorems in `HttpProps.v`; status: proved.

* `header_found` – Headers are looked up by their exact name, the first one counts.
* `header_added` – A header that is added is found if there is none of that name already; other headers are not affected.
* `headers_appended`
* `client_named` – A new client names the program, and this library, in each request.
* `request_text` – The text of a request: the line with method and URI, the headers of the client and those of the request in their order.
* `request_defined_iff` – Each method of RFC 2616 has its name; the others are undefined behaviour.
* `request_none_refuted`
* example `request_sample`
* `login_request` – A login makes one request, with the headers of the client: the name of the user, the password, the name of the program and the service are posted to the address of the login service over a secure connection.
* `login_correct` – After a login the token is what follows the first Auth= of the response, without the newline at its end; it is sent with every request.
* `login_failed` – Without a response or without a token in it nothing changes.
* example `login_sample`
* `login_token_refuted` – Lines after the token become part of the token and of the header; without a newline at the end the last character of the token is lost; LAuth= is taken for Auth=.
* `login_data_refuted` – Different credentials can give the same request, as nothing is escaped.
* `login_data_distinct` – Credentials without an ampersand are told apart.
* `login_again_refuted` – After a second login the old token comes first.
* `header_case_refuted` – Names of headers do not depend on case, but the lookup does.
* `method_names` – The names of the methods are those of RFC 2616, 9.2 to 9.9, in this order.

Note: Part of the property is false of the code: see the _refuted theorems; the others state what does hold.

### C91 Finding elements by type

Looking for the elements of a type below an element finds exactly the complex elements of this type, or of a type derived from it, that are written for the element, in the order of their tags; asking for the children, or for all descendants, gives exactly those written as children or descendants. (Violated: an element its parent does not take as child is written but not found, while what is inside of it is found and counts as a child of the parent; the element the search starts from is not found.)

Code: `engine/find.cc:GetElementsById`; `engine/find.cc:GetChildElements`; `engine/find.cc:ElementTypeFinder::SaveElement`; `engine/find.cc:AllElementFinder::SaveElement`; `dom/element.cc:Element::SerializeUnknown`. Model: `FindModel.v`. Theorems in `FindProps.v`; status: proved.

* `elements_found` – Looking for the elements of a type below an element finds exactly the complex elements with a tag of this type, or of one derived from it, in what is written for the element, in the order of their tags; the element itself is not looked at.
* `descendants_found` – The same for all descendants and for the children only.
* `children_found`
* example `find_sample`
* `find_misplaced_refuted` – An element where its parent does not take it is not found, but what is in it is, and counts as child of the parent.
* `find_root_refuted` – The element the search starts from is not found even if it is of the type.

Note: Part of the property is false of the code: see the _refuted theorems; the others state what does hold.

### C92 Visiting the feature hierarchy

Visiting the feature hierarchy calls the visitor with each feature reached through the feature lists of Folders and Documents exactly once, parents first and siblings in order, and with nothing else. The root feature of a file is the feature of its kml element if it has one, else the root itself if it is a feature, else there is none. (Features inside of an update of a tour are not visited.)

Code: `engine/feature_visitor.cc:VisitFeatureHierarchy`; `engine/feature_visitor.cc:GetRootFeature`. Model: `FindModel.v`. Theorems in `FindProps.v`; status: proved.

* `features_visited` – Visiting the feature hierarchy calls the visitor with each feature reached through the feature lists of Folders and Documents exactly once, parents first and siblings in order; nothing else is visited.
* `root_feature_correct` – The root feature is the feature of a kml element which has one, or else the element itself if it is a feature.
* example `visit_sample` – All features of a file are found by visiting its root feature, except those inside of updates.
* `visit_update_refuted`

Note: Part of the property is false of the code: see the _refuted theorems; the others state what does hold.

### C93 Google Maps data: features of a map and posted features

Getting the features of a map appends a copy of the feature of each entry that has one to the container, in order, and gives their number; the document of a map given in several feeds linked by next has exactly the features of all of them. Posting a feature is one POST of an Atom document with an entry titled like the feature that contains it; posting the placemarks of a feature does so for each placemark with a geometry below it in document order and gives the number accepted. The URI of the search feed is that of the feature feed up to the last slash with snippet appended. (Violated: a next link to the feed itself makes the loop endless; a feature in which an id occurs twice is undefined behaviour; a root placemark without geometry is posted; a slash in the query confuses the search URI; parameters are appended without separators.)

Code: `convenience/google_maps_data.cc:GoogleMapsData::GetMapKml`; `convenience/google_maps_data.cc:GoogleMapsData::CreateDocumentOfMapFeatures`; `convenience/google_maps_data.cc:GoogleMapsData::CreateMap`; `convenience/google_maps_data.cc:GoogleMapsData::AddFeature`; `convenience/google_maps_data.cc:GoogleMapsData::PostPlacemarks`; `convenience/google_maps_data.cc:GoogleMapsData::GetSearchFeedUri`; `convenience/google_maps_data.cc:GoogleMapsData::AppendBoxParameter`; `convenience/google_maps_data.cc:GoogleMapsData::GetKmlUri`; `convenience/google_spreadsheets.cc:GoogleSpreadsheets::DownloadSpreadsheet`. Model: `MapsModel.v`. Theorems in `MapsProps.v`; status: proved.

* `map_kml_correct` – Getting the features of a map appends a copy of the feature of each entry that has one to the container, in the order of the entries, changes nothing else of it, and gives their number.
* `map_kml_clones` – What is appended is what Clone makes of each feature, even where that is not the same as the feature.
* `document_of_feeds` – The document of the features of a map which is given in several feeds has exactly the features of all of them, in order.
* example `map_sample`
* `feed_loop_refuted` – The loop over the feeds does not end if the next link of a feed leads to itself.
* `add_feature_correct` – Posting a feature is defined exactly if no id occurs twice below the feature; then one request is made, a POST of an Atom document to the given URI: a file with an entry with the name as title and the description as summary, which contains the feature.
* `add_feature_defined`
* `post_duplicate_refuted` – Violated: posting a feature in which an id occurs twice is undefined behaviour.
* `create_map_correct` – Making a map posts one entry with its title and summary.
* `post_placemarks_correct` – Posting the placemarks of a feature makes one request for each placemark with a geometry below it in document order; the result is the number of those the server accepted.
* `post_placemark_root`
* example `post_sample`
* `post_no_geometry_refuted` – A placemark without geometry is posted if it is the root, but not below a folder.
* `search_feed_uri_correct` – The URI of the search feed is that of the feature feed with what follows the last slash replaced; without a slash there is none.
* `search_feed_uri_none`
* example `search_sample`
* `search_feed_query_refuted` – A slash in the query of the feature feed is taken for that before its last segment.
* `search_box_uri` – The request of a search for a box.
* `search_box_append_refuted` – Parameters that are there already are not separated from that of the box.
* `kml_uri_correct` – The URI of the KML of a map is its alternate link, found as C87 says, with a parameter appended; there is one exactly if there is such a link.
* `kml_uri_no_query_refuted` – The parameter is no parameter if the link has no query.
* `download_correct` – A spreadsheet is asked for with its resource id and the format.
* `download_none`
* `post_table_correct` – A table and a KML file are posted unchanged to the feed of the maps, with the title as slug and the type of their data.
* `post_kml_correct`
* `document_not_copied` – A feature of the feeds that cannot be copied: the result is what copying gives.

Note: Part of the property is false of the code: see the _refuted theorems; the others state what does hold.

### C94 Values an element keeps of its simple children

Of the text of a simple child an element keeps and writes again: the text itself for text children; 1 or 0 for booleans, 1 exactly if the text begins with true or 1 after white space; the canonical colour text; the printed number at the start of the text, or the value before for blank text; an enumeration value exactly if it is in the schema; of the states of a list icon exactly the valid words. (Violated: states separated by white space other than single spaces are all lost; an address that begins with CDATA marks loses its last three characters whatever they are.)

Code: `dom/element.cc:Field::SetBool`; `dom/element.cc:Field::SetDouble`; `dom/element.cc:Field::SetEnum`; `dom/element.cc:Field::SetString`; `dom/liststyle.cc:ItemIcon::AddElement`; `dom/link.cc:BasicLink::AddElement`; `base/color32.h:Color32`. Model: `AccessModel.v`, `AttributesModel.v`, `CastModel.v`, `CloneModel.v`, `ColorModel.v`, `CoordModel.v`, `DomModel.v`, `DomTables.v`, `HandlerModel.v`, `NamespaceModel.v`, `NumberModel.v`, `SerializerModel.v`, `StringsModel.v`, `XsdModel.v`, `XsdTables.v`. Theorems in `FieldProps.v`, `NumberDomProps.v`; status: proved.

* `boolean_child` – A boolean child is kept as 1 or 0: as 1 exactly if its text begins, after spaces, with true or 1.
* `colour_child` – A colour child is kept as the canonical text of the colour (C01, C02).
* example `colour_child_sample`
* `enum_child` – An enumeration child is kept exactly if its text is one of the values of the schema.
* `states_child` – Of the states of an icon, words separated by single spaces, exactly those of the schema are kept, in order.
* example `states_child_sample`
* `states_newline_refuted` – Violated: words separated by other white space are all lost.
* `link_open_marks` – Marks of a CDATA section at the start of a link are taken off even if those at its end are missing; then the last three characters are lost, unless the rest is shorter than that.
* `link_short_marks`
* `link_end_lost_refuted` – Violated: an address that begins with such marks loses its end.
* `text_child` – A text child is kept as it is.
* `number_child` – A number child is kept as the printed value of the number at its start, white space before it and anything after it is ignored; blank text keeps the value before, or the default.
* `blank_number_child`
* example `number_child_sample`
* `element_digits_kept` – The number in a simple element, after any white space, is kept if it has up to 15 significant digits; its text is a numeral of the same value.

Note: Part of the property is false of the code: see the _refuted theorems; the others state what does hold.

### C95 Collecting the features while parsing

Parsing with the feature list saver lists every feature of the text which is neither a Document nor a Folder, once each, in the order in which the features end, and gives the document without these features, without Update elements and, if a style map was given, without the named styles of its Documents. A listed feature is complete unless it has such parts of its own. The style map has for an id the last style of that id directly in a Document. With a base, styleUrls into the same file get the base in front, other styleUrls and everything else stay. Features inside an Update are no features of the document, a text that is one feature lists it, and styles with names of one character are rebased as well (false of the code).

Code: `convenience/kml_feature_list_saver.h:KmlFeatureListSaver::EndElement`; `convenience/kml_feature_list_saver.h:KmlFeatureListSaver::StartElement`; `dom/parser_observer.h:ParserObserver`; `dom/kml_handler.cc:KmlHandler::CallEndElementObservers`. Model: `SaverModel.v`. Theorems in `SaverProps.v`; status: proved.

* `features_saved` – Parsing with the observer gives: the list of all features of the text which are no containers, in the order in which they end; and the document without them, without Update elements and, if a style map was given, without the named styles of its Documents. Each listed feature is as it stands in the text, but for such parts of its own.
* `listed_features` – Every plain feature somewhere in the document is listed, and nothing else.
* `rest_without_features` – Nothing of this is left in the document.
* `saved_whole` – A feature without further features, Update elements or Documents inside is listed as it is.
* `rebase_correct` – With a base, a reference to a style of the same file whose name has two characters or more gets the base in front; every other styleUrl stays, and so does everything else.
* `rebase_nothing`
* `listed_elements` – The list as elements: one for each listed feature, built and then rebased.
* `styles_saved` – The style map has, for an id, the last style with this id directly in a Document (without such parts as are taken out), and nothing exactly when there is none.
* `save_features_correct` – So what a program gets that parses with the observer and lists the features: the elements of the features, with their style references completed, and the styles.
* example `saver_sample` – Non-vacuity.
* `rebase_short_refuted` – A reference to a style of the same file whose name has one character is not given the base.
* `saved_update_refuted` – Changes are no features of the document, but a placemark to be changed by an Update is listed as well.
* `saved_root_refuted` – A text whose root is a feature: the feature is not listed.

Note: Part of the property is false of the code: see the _refuted theorems; the others state what does hold.

### C96 Counting the elements of a document

The element counter has for every element type how many elements of that type the parsed document has, and no entry for other types. Elements inside a description or foreign markup count as well (false of the code).

Code: `convenience/element_counter.h:ElementCounter::NewElement`. Model: `SaverModel.v`. Theorems in `SaverProps.v`; status: proved.

* `elements_counted` – The counter has for every type how often elements of that type occur in the document, and no entry for types which do not occur; the parse itself is not affected.
* example `count_sample`
* `count_hidden_refuted` – Elements inside foreign markup or in a description are not counted.

Note: Part of the property is false of the code: see the _refuted theorems; the others state what does hold.

### C97 Schemas of a document by name

The schema map has for a name the last Schema of this name that stands directly in a Document, wherever that Document is, and no entry exactly when there is none.

Code: `engine/schema_parser_observer.h:SchemaParserObserver::AddChild`. Model: `SaverModel.v`. Theorems in `SaverProps.v`; status: proved.

* `schemas_by_name` – The schemas by name: the last Schema of that name directly in a Document; none exactly when there is no such Schema.
* example `schemas_sample`

### C98 Data fetched through the cache is the data itself

Whatever KML files and data were fetched through a KmlCache before, fetching data relative to a base URL (FetchDataRelative), or the icon of an overlay (FetchIcon), gives what fetching it without any cache gives; evictions, archives in the cache and failed fetches before make no difference. The icon of an overlay in a file on the web is what is at the URL that RFC 3986 gives for its href; in a file in an archive it is the file of that archive at the path meant, and in an archive made by CreateFromElement it is the file that was on the disk.

Code: `engine/kml_cache.cc: KmlCache::FetchDataRelative`; `engine/kmz_cache.cc: KmzCache::DoFetchAndReturnUrl, KmzCache::FetchFromCache`; `engine/link_util.cc: FetchIcon`; `base/net_cache.h: NetCache::Fetch`. Model: `KmlCacheModel.v`. Theorems in `KmlCacheProps.v`, `LinkFetchProps.v`; status: proved.

* `cached_data_same` – Whatever was fetched before, data fetched through the cache is the data fetched without any cache; and the same for the icon of an overlay, which is fetched relative to the file the overlay is in.
* `cached_icon_same`
* `icon_followed` – The icon of an overlay is what is at the URL that RFC 3986 says; in a file in an archive, it is the file in the archive at the path that is meant, whatever was fetched before.
* `icon_in_archive`
* `packed_icon` – In an archive made of a document and the files it links to, put on the web, the icon of an overlay in that document is the file it was on the disk, whatever was fetched before.
* example `small_place` – ** A small network
* example `small_follow` – From the document of the archive: its picture, and a file up two levels; the archive itself from a file beside it.

### C99 KML files fetched through the cache

A file returned by FetchKmlRelative, FetchKmlAbsolute or FetchLink is made of content which a fetch without caches gives, with the URL that fetch reports. If there is content at the place a reference names, the file is made of that content whatever was fetched before. A file which has the URL asked for (not that of an archive) is returned itself when asked for again. Refuted for URLs of archives: these are parsed again each time and give another file. Refuted: an archive linked from a document in another archive gets the URL of the archive, not that of its document, so its references resolve elsewhere. A link up and down directories gives the file made of what is at the URL that RFC 3986 says, a link to an archive the file made of its document, a link into an archive the file made of that entry.

Code: `engine/kml_cache.cc: KmlCache::FetchKmlRelative, KmlCache::FetchKmlAbsolute`; `engine/kmz_cache.cc: KmzCache::DoFetchAndReturnUrl`; `engine/kml_uri_internal.h: KmlUri::set_path_in_kmz`; `engine/link_util.cc: FetchLink`. Model: `KmlCacheModel.v`. Theorems in `KmlCacheProps.v`, `LinkFetchProps.v`; status: proved.

* `cached_kml_genuine` – A file returned by the cache was made of content that is at its URL: of what a fetch without caches of some reference gives, and with the URL this fetch reports.
* `cached_kml_content` – If there is content at the place a reference names, then, whatever was fetched before, the file returned is made of that content, and of no other.
* `cached_kml_again` – A file that reports the URL it was asked for is returned itself when it is asked for again.
* `cached_link` – A link is fetched relative to the URL of the file it is in.
* `cached_absolute` – Fetching an absolute URL is fetching it from any base, as long as the base makes no difference to what the URL is.
* example `small_splits` – ** A small network
* example `small_again` – The document of an archive, asked for by its own URL, is returned itself the second time.
* example `small_data`
* `archive_again_refuted` – Refuted for the URL of an archive: its document is kept under another URL than the one asked for, so that asking again parses it again and gives another file each time.
* `linked_archive_refuted` – Refuted for an archive linked to from a document in another archive beside it: the file gets the URL of the archive, not of the document in it, so its own references are taken to be beside the archive.
* `address_fetched` – A reference to a web address, from wherever it is made and whatever was fetched before, gives the file made of what is at that address: no assumption about how addresses are put together and taken apart is left.
* `link_followed` – A network link in a file on the web, up some directories and down others, gives the file made of what is at the URL that RFC 3986 says, whatever was fetched before.
* `link_to_archive` – A network link to an archive gives the file made of the document of that archive; a link into an archive gives the file made of the file of that name in it.
* `link_into_archive`
* `url_fetched` – A URL on the web, fetched as such or linked to from any file on the web, gives the file made of what is there, whatever was fetched before; the URL of an archive made of a document and the files it links to gives the file made of that document.
* `packed_document`

Note: Part of the property is false of the code: see the _refuted theorems; the others state what does hold.

### C100 Archives are read as the ZIP format says

The table of contents of ZIP data are the names of the entries of its central directory in order, also with bytes before the archive, extra fields, comments and data descriptors; reading a listed name gives the uncompressed data of the first entry of that name, if it is not empty and not above the limit, where compressed data means what RFC 1951 says. Data that does not match its checksum is not returned (false of the code). Entries with long names (256 to 1023 bytes) can be read like others, and archive comments of any length the format allows make no difference (false of the code). An archive without comment of less than 19280 entries and 88821760 bytes is always read; one whose directory begins at byte 101010256 is not (false of the code).

Code: `base/zip_file.cc: ZipFile::OpenFromString, ZipFile::GetToc, ZipFile::GetEntry`; `base/contrib/minizip/unzip.c: libkml_unzAttach, libkml_unzGoToNextFile, libkml_unzLocateFile, libkml_unzOpenCurrentFile, libkml_unzReadCurrentFile`; `base/contrib/minizip/iomem_simple.c: mem_read, fseek_calc`. Model: `UnzipModel.v`. Theorems in `ArchiveWriteProps.v`, `DeflateProps.v`, `UnzipProps.v`; status: proved.

* `written_is_zip` – What is written is an archive as the ZIP format says, with these files in this order, as long as it all stays below 2 GB.
* `inflate_prefix` – What compressed data stands for does not depend on what is behind it.
* `inflate_enough` – The number of steps allowed is no limit: with any number of steps the result is the same, or there is none.
* `rfc1951_inflates` – An inflate as RFC 1951 says meets the contract that the theorems about archives rest on.
* `stored_inflates` – There is a compression for all data.
* `archive_rfc1951` – Reading an archive by the ZIP format and RFC 1951 only: an entry that is not stored holds compressed data for its data.
* `archive_listed` – The table of contents of a well-formed archive are the names of its entries in order.
* `archive_opened` – Such data is opened exactly if it starts with the signature of a local header.
* `archive_entry_read` – Reading a listed name gives the data of the first entry of that name, if there is any and not too much of it.
* `archive_is_list` – So on a platform with exact names the archive is the list of its names with their data, as the theorems about archives (C54, C68, C69) take it.
* `archive_exists` – Every list of files whose names are shorter than 64 kB has such an archive, as long as it all stays below 2 GB.
* example `crc32_check` – CRC-32 (APPNOTE 4.4.7), bit by bit.
* `archive_local_header` – Data is only taken from behind a local header which agrees with the directory: it has the signature, the method of the directory, which is stored or deflated, the length of the name, and, unless its flags say that a descriptor follows the data, the checksum and both sizes.
* `archive_checksum_refuted` – Refuted: the checksum is not looked at. Damaged data is returned as if it were whole.
* `archive_long_name_refuted` – Refuted: an entry whose name has 256 bytes or more is listed but cannot be read.
* `archive_long_comment_refuted` – Refuted: the format allows comments of up to 65535 bytes, but with one of more than 65513 the archive seems empty.
* `archive_comment_record_refuted` – Refuted: a comment that itself looks like an end record hides the entries.
* `archive_case_refuted` – Refuted on platforms that do not define the macro unix: of two names that differ in case only the first is read for both.
* `upper_same` – The names compared without regard to case differ at most in the case of ASCII letters.
* `small_archive` – An archive without a comment, of less than 19280 entries and 88821760 bytes, has nothing in its end record that looks like the start of one: the condition of the theorems above is met.
* `archive_position_refuted` – Refuted without it: a well-formed archive whose directory begins at byte 101010256 has the signature of an end record in its end record, and nothing is found in it.

Note: Part of the property is false of the code: see the _refuted theorems; the others state what does hold.

### C101 Damaged archives do no harm

Opening any bytes as an archive and asking it for any file ends, never reads outside of the bytes or of the buffers used, lists no more names than directory items fit into the data, and returns only non-empty data within the size limit. (False of the code for a directory item with a name of 1024 bytes or more: the name is taken from a full buffer without a terminating NUL.)

Code: `base/zip_file.cc: ZipFile::ZipFile, ZipFile::GetEntry`; `base/contrib/minizip/unzip.c: unzlocal_SearchCentralDir, unzlocal_GetCurrentFileInfoInternal, unzlocal_CheckCurrentFileCoherencyHeader, libkml_unzReadCurrentFile`; `base/contrib/minizip/iomem_simple.c: mem_read`. Model: `FromParseModel.v`, `KmzDiskModel.v`, `UnzipModel.v`. Theorems in `DeflateProps.v`, `FromParseProps.v`, `KmzDiskProps.v`, `UnzipProps.v`; status: proved.

* `rfc1951_progresses` – It makes progress on any data, so reading a damaged archive with it ends.
* `damaged_rfc1951` – With the inflate of RFC 1951: whatever the data, a file asked for is given or not, and not above the limit.
* `any_data_parsed` – Whatever the data, reading them does no harm beyond what the parser of texts does: it ends, unless an archive has an item with an overlong name, with nothing or with what the parser makes of some text that is not empty.
* `any_data_rfc1951` – With the inflate of RFC 1951 and a parser that never does harm: no data do harm but an archive with an overlong name.
* `overlong_parsed_refuted` – Refuted with such a name, as for opening the archive.
* `open_from_file_none` – Opening what is not a file, or not an archive, gives no archive.
* example `kmz_on_disk_sample` – A document with a picture, a link to a directory and one to nothing.
* `damaged_open` – Opening any data ends, and its table of contents has no more names than fit into it, unless there is an item with an overlong name.
* `damaged_open_refuted` – Refuted with such a name: the constructor reads past the end of its buffer.
* example `overlong_witness`
* `damaged_read` – Asking an opened archive for a file ends whatever the data, and what it gives is not empty and not above the limit.
* `memory_read_inside` – Reading from memory never leaves the data: every read gives a part of it, as much as was asked for or as much as there is.
* example `progress_witness`
* `archive_parts_empty` – Data whose end record is that of one of several parts, or tells of a directory that cannot be in the data, has no entries.
* example `archive_parts_sample`

Note: Part of the property is false of the code: see the _refuted theorems; the others state what does hold.

### C102 The operations of an update act in turn

An update with any number of Change, Create and Delete operations behaves as if each operation looked up its targets in the document as the operations before it left it: each acts on the object which has the target id now, an operation whose target was removed or never was does nothing, and nothing undefined happens. (Violated where ids change: an object given a new id by a Change is still reached by the old one, and Delete reaches it by neither; what a Create made cannot be reached at all.)

Code: `engine/update_processor.cc: UpdateProcessor::ProcessUpdate, ProcessUpdateChange, ProcessUpdateCreate, ProcessUpdateDelete`; `engine/update.cc: ProcessUpdate`; `engine/kml_file.cc: KmlFile::GetObjectById`. Model: `WholeUpdateModel.v`. Theorems in `WholeUpdateProps.v`; status: proved.

* `update_in_turn` – The operations of an update, in a file which was read and whose ids are distinct, act in turn, each on the object which has the id in the document as the operations before it left it; nothing undefined happens. (Outside: a Change of a shape the models do not follow.)
* example `update_sample` – The hypotheses hold; what is left before and after the last Delete.
* `update_changed_id_refuted` – An object whose id was changed is still known by the id it had, and a Delete of it does nothing by either id; another Change by the old id still reaches it.
* `update_created_refuted` – What an update makes cannot be reached by its later operations.

Note: Part of the property is false of the code: see the _refuted theorems; the others state what does hold.

### C103 Requests of the Google services carry the right version, scope and headers

Whatever a caller asks GoogleDocList, GooglePicasaWeb, GoogleSpreadsheets or GoogleMapsData for, in whatever order and with logins in between, each request that leaves the HTTP client has the headers the client had when it was handed over, one GData-Version header with the version of that service, and an address inside the scope of the service (from the environment if the variable is set, else the default of the service); uploads carry the data given, unchanged, with the media type given; what GetMetaFeed returns is the parsed answer exactly if it is a feed. Not so, with witnesses: a client that was used for another service sends two versions; a scope variable set to the empty text leaves an address without host; keys and formats are not escaped in the download address.

Code: `convenience/google_doc_list.cc: GoogleDocList::Create, GetMetaFeedXml, GetMetaFeed, UploadSpreadsheet`; `convenience/google_picasa_web.cc: GooglePicasaWeb::Create, GetMetaFeedXml`; `convenience/google_spreadsheets.cc: GoogleSpreadsheets::Create, DownloadSpreadsheet`; `convenience/google_maps_data.cc: GoogleMapsData::Create, GetFeatureFeedXml, PostMedia`; `convenience/http_client.cc: HttpClient::Login, SendRequest`. Model: `ServicesModel.v`. Theorems in `ServicesProps.v`; status: proved.

* `service_headers` – Every request of a session with a service, the logins included, is sent with the headers the client had, first, and one GData-Version header with the version of the service.
* `service_addresses` – A request goes to an address inside the scope of the service, or to one the caller gave; only uploads have a body, which is sent as it is.
* `service_scope` – The scope is what the environment says, else that of the service; there is a service object exactly if there is a client.
* `services_distinct` – The four services have different names, variables, scopes and feeds, so that one does not answer for another.
* `service_names` – The names by which the services are known to the login service.
* `service_variables` – The environment variables that change the addresses of the services.
* `meta_feed_address` – The address of the feed of each service, and the scope it has without an environment.
* `service_version`
* `default_addresses`
* `scope_variables` – The environment variable of each service.
* `meta_feed_correct` – The feed is the parsed answer if the answer is a feed, and nothing otherwise.
* `service_version_refuted` – A client which was made for one service and is given to another sends both versions, the one of the first service first.
* `service_empty_scope_refuted` – A variable which is set but empty does not leave the default: the address is then no address of a host.
* `download_address_refuted` – The key of a spreadsheet and the format are not escaped: different requests of the caller can be the same address.
* `download_address_distinct` – Keys without an ampersand are told apart, and so are the formats asked for.
* example `session_sample` – The hypotheses hold: a session of a client that logs in, then asks.

Note: Part of the property is false of the code: see the _refuted theorems; the others state what does hold.

### C104 A computed view looks at the feature

ComputeFeatureLookAt returns a view exactly if the feature (recursively, for containers) has a point, line, ring, polygon outer boundary or model location; the LookAt is at a latitude and longitude inside every bounding box that contains all these places (so inside the smallest one), at the place itself if there is only one, with a range of at least a kilometre. GetPlacemarkLatLon, GetPointLatLon and GetCenter give the corresponding places. Places on both sides of the antimeridian, beyond 180 degrees, and ground overlays are not handled as one expects.

Code: `engine/feature_view.cc ComputeFeatureLookAt ComputeBboxLookAt`; `engine/location_util.cc GetFeatureBounds GetGeometryBounds GetPlacemarkLatLon GetPointLatLon GetCenter`. Model: `ViewModel.v`. Theorems in `ViewProps.v`; status: proved.

* `view_inside` – There is a view for a feature exactly if it has a place; the view is at a point of the smallest box around its places: inside every box that has them all.
* `view_of_place` – A feature with one place, however often it is given, is looked at there.
* `view_range` – The range is at least a kilometre, unless the distances are no numbers; and it is what was computed if that is more.
* `places_correct` – A placemark is where the view of it is; the place of a Point is its first tuple, the one of a box is the middle, inside of it.
* example `view_sample` – Non-vacuity: a folder with two places that can be used, and its view.
* `view_refuted` – Places on both sides of the date line are looked at from the other side of the earth; a place east of 180 degrees is looked at beside it; a ground overlay has no view, whatever box it has.

Note: Part of the property is false of the code: see the _refuted theorems; the others state what does hold.

### C105 Tour updates move just the placemark they name

The gx:AnimatedUpdate made by CreateAnimatedUpdateChangePoint, applied to any document that has a point placemark with the given id, moves that point to the given place, keeps all other values, attributes and coordinates of the placemark, and leaves every other element of the document alone; CreateFlyTo and CreateFlyToForFeature hold an equal copy of the feature's own view, or else the computed view, and there is no flight exactly if there is neither; the elements made by the other convenience functions (CreateLookAt, CreateCamera, CreateRegion2d, CreateWait, the placemark functions) hold exactly the values given, each at its own place. A placemark with another geometry loses it.

Code: `convenience/convenience.cc CreateAnimatedUpdateChangePoint CreateFlyTo CreateFlyToForFeature CreateWait CreateLookAt CreateCamera CreateRegion2d CreatePointPlacemark CreatePointPlacemarkWithTimeStamp CreateBasicPolygonPlacemark`. Model: `RegionLinkModel.v`, `TourModel.v`. Theorems in `RegionLinkProps.v`, `TourProps.v`; status: proved.

* `region_link_correct` – A link to the file of a region, and the document of a region: a region equal to the one given, in an element of its own, and for the link the address asked for, to be fetched when the region is in view.
* example `child_region_sample` – A region with altitudes, read from a text, with the numbers of NumberModel.v: the hypotheses, and its south-eastern quadrant.
* `move_point_correct` – The update of a tour that moves a placemark, applied to a document that knows the id: the placemark's Point has the new place; every other value, attribute and tuple of it is as it was, and so are all other elements.
* example `move_sample` – The hypotheses hold of a ship in a port, and this is where it is afterwards.
* `move_line_refuted` – Moving a placemark that is no point replaces its geometry: the line is gone.
* `fly_to_correct` – Flying to a view: the duration asked for and a view that is equal to the one given, in an element of its own.
* `fly_to_feature_correct` – Flying to a feature: to its view if it has one; else to the view computed for it; no flight exactly if there is neither a view nor a place.
* example `fly_sample` – The hypotheses hold of a place without a view, and of numbers printed as 0.
* `computed_view_element` – The other elements: every number and text is where it belongs, and there is nothing else.
* `view_elements`
* `region_element`
* `placemark_elements` – Placemarks made for a place are at that place, those made for a ring are where the ring is; the ring and the point are the ones given.
* `wait_element`
* `move_element` – The update of a tour has no target file, one change, and the duration asked for.

Note: Part of the property is false of the code: see the _refuted theorems; the others state what does hold.

### C106 Distances and directions on the sphere

In exact arithmetic the distance between two latitude/longitude pairs is the length of the shorter great circle arc on a sphere of 6366710 m: between 0 and half the circumference, symmetric, 0 exactly for the same place (full turns of the longitude and the poles included), and satisfying the triangle inequality. The point computed at a distance along a radial has exactly that distance from the start (so all vertices of a generated circle have the radius as distance from its centre) and a latitude in [-90, 90]. The azimuth lies in (-180, 180], and walking the distance along the azimuth from the first place ends at the second. The distance with altitudes is at least the distance on the surface and the difference of the altitudes; ground distance and height of range and elevation give both back. The longitude of a point on a radial need not lie in [-180, 180]: a quarter of the way around to the west of longitude -180 gives -270.

Code: `base/math_util.cc AzimuthBetweenPoints DistanceBetweenPoints DistanceBetweenPoints3d ElevationBetweenPoints GroundDistanceFromRangeAndElevation HeightFromRangeAndElevation LatLngOnRadialFromPoint`; `base/math_util.h`; `convenience/convenience.cc CreateCoordinatesCircle`. Model: `GeoModel.v`. Theorems in `GeoProps.v`; status: proved.

* `distance_great_circle` – The distance is the length of the great circle arc: between 0 and half the way around, and its angle is the one between the two places seen from the centre. It is a distance: symmetric, 0 exactly for the same place of the sphere, and no detour is shorter.
* `distance_symmetric`
* `distance_zero`
* `distance_triangle`
* `radial_distance` – The place on a radial has the distance asked for from the point, for distances up to half the way around; its latitude is one.
* `azimuth_range` – The azimuth is above -180 and at most 180 degrees; going the distance between two places in the direction of the azimuth leads from one to the other (up to full turns of the longitude).
* `distance_zero_degrees` – In degrees: the distance is 0 exactly when the latitudes are the same and the longitudes differ by full turns, or both are the same pole.
* `radial_round_trip`
* `distance3d_correct` – Points with altitudes: the distance is not less than either part and does not depend on the order; range and elevation give back the distance along the ground and the difference of the altitudes.
* `range_elevation`
* `elevation_correct`
* `circle_points_correct` – All points of a circle have the radius as their distance from the centre; two of them are never further apart than twice the radius.
* `radial_longitude_refuted` – The longitude of a place on a radial is not always one between -180 and 180: going a quarter of the way around to the west from -180 ends at -270.
* example `geo_sample` – The hypotheses hold somewhere: a quarter of the way around along the equator.
* `azimuth_self` – The direction from a place to itself is given as north.

Note: Part of the property is false of the code: see the _refuted theorems; the others state what does hold.

### C107 Type tests, casts and visitors follow the class hierarchy

For every element the library can create, the dynamic type test answers true exactly for the element's own type and the types its class derives from; a cast function returns the element exactly when the element really is of the target class (so the unchecked pointer conversion behind it is sound), and a visitor that overrides one visit function (for instance the one for features) receives exactly the reached elements of that class, in the order of the driver; of several overridden functions only the one of the nearest class is called. Two exceptions are exhibited: the cast to gx:SimpleArrayField accepts a plain SimpleField (a pointer to an object of the wrong class), and the visit function for hotSpot is never called.

Code: `dom/kml_cast.cc`; `dom/kml_cast.h ElementCast AsGxSimpleArrayField`; `dom/visitor.cc Visitor`; `dom/visitor_driver.cc SimplePreorderDriver SimplePostorderDriver`; `dom/element.h Element::IsA`; `dom/schema.h GxSimpleArrayField`; `dom/hotspot.h HotSpot`. Model: `CastModel.v`. Theorems in `CastProps.v`; status: proved.

* `is_a_derives` – The test of types (IsA) answers true exactly for the class of the element and the classes it derives from.
* `cast_correct` – Each cast gives the element exactly if the element is of the class the cast leads to, apart from that to GxSimpleArrayField.
* `cast_array_field_refuted` – The cast to GxSimpleArrayField gives a pointer to a SimpleField, which is no such element.
* `visit_one` – A visitor with one visit function, say VisitFeature, gets exactly the elements of that class (and classes derived from it) that the driver comes to, in its order.
* `visit_nearest` – Of several overridden visit functions that of the nearest class is called, and only that.
* `visit_hotspot_refuted` – VisitHotSpot is never called: a hotSpot is visited as a Vec2.
* example `visit_sample` – A case: a visitor for features and containers.

Note: Part of the property is false of the code: see the _refuted theorems; the others state what does hold.

### C108 Aliases and creators of the XSD tools

Reading any XST text ends; afterwards the alias of a name is the one given by its last line of the form 'alias name alias' in the text, and what it was before if there is no such line; reading the text a second time changes nothing. The creator functions make types, elements and schemas with exactly the given names; a schema needs a prefix and a namespace. (Violated for texts with carriage returns, which stay in the alias, and for words set off by more than one space.)

Code: `xsd/xst_parser.cc: XstParser::ParseXst, XstParser::ParseXstAlias`; `xsd/xsd_file.h: XsdFile::set_alias, XsdFile::get_alias`; `xsd/xsd_util.cc: CreateXsdComplexType, CreateXsdElement, CreateXsdSchema`. Model: `XstModel.v`. Theorems in `XstProps.v`; status: proved.

* `xst_alias_correct` – Reading any XST text ends; the alias of a name afterwards is the one of its last line in the text, and the one it had before if it has no line. A line which is not exactly [alias real alias], with single spaces, means nothing.
* `xst_text_lines` – Every text is such a list of lines.
* `xst_idempotent` – Aliases do not care for the order of lines about different names, and reading a text again changes nothing.
* `xst_space_refuted` – Lines ended by a carriage return keep it in the alias, and a name or alias set off by more than one space is not read.
* example `xst_sample`
* `xsd_create_correct` – The creators make what they are asked for; a schema needs a prefix and a namespace.

Note: Part of the property is false of the code: see the _refuted theorems; the others state what does hold.

### C109 Files made from elements

A KmlFile made from an element finds for an id the last element with it in the order of writing, and as shared style that same element if it is a style selector in a Document; making the file fails exactly in the strict variant for a tree in which two written elements share an id. Every id and every shared style known to the file made from a parsed root is known to the parsed file, and the strict variant accepts every parsed document without repeated ids. (Violated the other way round: replaced objects are unknown to the import, a shared style is hidden by any later object with its id, and of two objects with one id the import may give the other one.)

Code: `engine/kml_file.cc: KmlFile::CreateFromImport, KmlFile::CreateFromImportLax, KmlFile::GetObjectById, KmlFile::GetSharedStyleById`; `engine/id_mapper.cc: MapIds`. Model: `ImportModel.v`. Theorems in `ImportProps.v`; status: proved.

* `import_fails_iff` – Importing fails exactly in the strict way for a tree in which two written elements have the same id.
* `import_lookup` – An imported file gives for an id the last written element which has it; the shared style of an id is that same element, if it is a style selector and its parent is a Document.
* `import_of_parsed` – Importing the root of a parsed document: every id and every shared style the imported file knows is known to the parsed file, and if no two parsed elements share an id the strict import succeeds.
* `import_replaced_refuted` – The converse fails: an object which was replaced by a later one is not known to the import; a shared style is not known if a later object has its id; and of two objects with one id the import may know the other one.
* `import_style_refuted`
* `import_order_refuted`
* example `import_file_sample`

Note: Part of the property is false of the code: see the _refuted theorems; the others state what does hold.

### C110 Text arrives as UTF-8 and entity declarations are refused

Names, values and character data reach a handler as they are in the document where expat reports bytes, and in UTF-8 where expat was built to report UTF-16, if all characters are of the Basic Multilingual Plane; the comment that others are dropped is false, as the second half of their pair of surrogates arrives in a form that is not UTF-8. A document that declares an entity is refused by ParseString, by parsing in blocks, by Parse, ParseNS, ParseAtom and XsdFile::CreateFromParse: no function of the handler is called, no entity is expanded, no element is made; a document without entity declarations is parsed as always. XsdFile::CreateFromParse accepts the empty text, and documents without a schema element, and the target namespace of the file it makes of them must not be asked for.

Code: `base/expat_handler.h: xmlchar_to_utf8, xml_char_to_string, xml_char_to_string_n`; `base/expat_parser.cc: entityDeclHandler, ExpatParser::ParseString, ExpatParser::ParseBuffer, ExpatParser::ParseInternalBuffer`; `dom/parser.cc: Parser::Parse, Parser::ParseNS, Parser::ParseAtom`; `xsd/xsd_file.cc: XsdFile::CreateFromParse`; `xsd/xsd_file.h: get_target_namespace`. Model: `ExpatModel.v`. Theorems in `ExpatProps.v`; status: proved.

* `text_utf8` – Where expat reports UTF-16, a text of characters of the Basic Multilingual Plane arrives as its UTF-8 form.
* `name_utf8` – The same for names and values, which end with a zero.
* `bytes_kept` – Where expat reports bytes, they arrive as they are.
* example `utf8_sample`
* `surrogates_refuted` – Characters outside of it, reported as a pair of surrogates, are not dropped: the second half arrives in a form that is not UTF-8.
* `entity_declaration_rejected` – If a document declares an entity, which it does before its first element, its parse fails and the handler is not called: nothing is expanded.
* `entity_declaration_rejected_blocks` – The same for a document given in blocks, wherever it is cut.
* `entity_declaration_no_element` – No element, and an error, come from Parse, ParseNS and ParseAtom, and no file from XsdFile::CreateFromParse.
* `no_entity_declaration` – A document without entity declarations is parsed as C88 says.
* `xsd_no_entity_declaration` – A schema file without entity declarations is read as C72 says, and there is a file exactly if expat found no error.
* example `declaration_sample` – Witness: a declaration in a document of two blocks.
* `xsd_empty_refuted` – XsdFile::CreateFromParse of the empty text gives a file and no error; asking it for its target namespace is undefined.
* `xsd_no_schema_refuted` – The same holds for every document without a schema element that is read.
* example `xsd_prefix_sample` – Schemas are usually written with a prefix, as in xs:schema, which the reader does not know.
* `text_past_end` – What is read past the end of the memory is undefined: the count expat gives must be right.
* `name_past_end`
* `target_namespace_read` – The target namespace of a schema is the one its schema element says, and the prefix is one bound to it.
* example `target_namespace_sample`
* `foreign_root_stops` – A root element that is not of KML stops the parser: no element and an error from Parse and ParseNS, but ParseAtom has no parser to stop and is undefined.
* example `foreign_root_sample`

Note: Part of the property is false of the code: see the _refuted theorems; the others state what does hold.

### C111 The statistics of an element are those of its text

A StatsSerializer given an element without foreign markup counts as many starts and as many ends as the text written for the element has complex elements, and as many fields as it has simple elements other than colours; starts and ends agree for every element; if every element is where its parent takes it, the element count is the number of complex elements below the element. Colours are simple elements and not counted, and elements where their parent does not take them are written and not counted as elements.

Code: `dom/stats_serializer.h: StatsSerializer`; `dom/serializer.h: Serializer`; `dom/element.cc: Element::SerializeUnknown`. Model: `StatsModel.v`. Theorems in `StatsProps.v`; status: proved.

* `stats_count_written` – For an element without foreign markup the counts are those of the text written for it: as many starts and ends as there are complex elements, and as many fields as there are simple ones other than colours.
* `stats_balanced` – Starts and ends agree for every element.
* `stats_elements` – If every element is where its parent takes it, the element count is the number of complex elements below the element.
* example `stats_sample`
* `stats_colour_refuted` – Colours are simple elements and are not counted.
* `stats_misplaced_refuted` – Elements where their parent does not take them are written and not counted as elements.

Note: Part of the property is false of the code: see the _refuted theorems; the others state what does hold.

### C112 The getters of an element give what is written for it

For every element that can be read, what the getters give for its children agrees with the text written for it: the children a getter gives are exactly the child elements of its type (or of types derived from it) that are written, in the order written; the value of a simple child is the text written for it; the href found for a network link, a model, an overlay or an icon style is the text of the first href in the first link or icon written (a network link also takes the deprecated Url). The only child that is stored but not written is the name of a locality in an xAL address.

Code: `dom/element.cc: Element::AddElement`; `dom/networklink.cc: NetworkLink::AddElement, Serialize`; `dom/xal.cc: XalLocality::Serialize`; `engine/link_util.h: GetHref, GetLinkParentHref, GetIconParentHref`. Model: `AccessModel.v`, `AttributesModel.v`, `CastModel.v`, `CloneModel.v`, `ColorModel.v`, `CoordModel.v`, `DomModel.v`, `DomTables.v`, `FindModel.v`, `HandlerModel.v`, `NamespaceModel.v`, `NumberModel.v`, `SerializerModel.v`, `StringsModel.v`, `XsdModel.v`, `XsdTables.v`. Theorems in `AccessWriteProps.v`, `GetterProps.v`, `NumberDomProps.v`; status: proved.

* `fields_written` – Whatever simple children an element was given: what it keeps to be written for a field is nothing if its has function is false, and otherwise one simple child with the text of the value of the get function.
* example `numbers_agree_sample` – Number formats that agree exist: here every number is written as 0.
* example `fields_written_sample`
* `getters_match_written` – For every element that was read, the children a getter gives are exactly the children of this type, or of types derived from it, in what is written for the element, in this order.
* `typed_getters_match_written` – In particular: the children of one type, and the values of simple children.
* `values_match_written`
* `link_href_written` – The href of the Link or Icon of an element is the value of the first href in the first Link or Icon written for it.
* `model_href_written`
* `icon_href_written`
* `iconstyle_href_written`
* example `getters_sample` – The hypotheses hold for what the parser makes (parsed_wf).
* `locality_name_refuted` – The exception: the name of a locality is stored but never written.
* `fields_written_as_text` – Whatever simple children an element was given: it writes exactly the fields whose has function is true, with the text of the value of the get function.
* example `fields_sample`

Note: Part of the property is false of the code: see the _refuted theorems; the others state what does hold.

### C113 Date-time text is read and written exactly

A DateTime is made from exactly the texts that begin with a year, month, day, hour, minute and second, each a number of at most four or two digits in its range, with -, -, T, : and : between them and a Z at the end, and its fields are these numbers. What is written for it (date, time and both) is always defined and gives the same DateTime when read again; a text in the form YYYY-MM-DDThh:mm:ssZ from the year 1000 on is written back unchanged; ToTimeT of a text from 1970 on is the number of seconds of the calendar, and 0 if there is no date-time in it. Text after the Z and days a month does not have are accepted, and the other forms of xsd:dateTime are refused.

Code: `base/date_time.cc: DateTime::Create, ToTimeT, GetXsdTime, GetXsdDate, GetXsdDateTime, ParseXsdDateTime`; `base/contrib/strptime.c: strptime, conv_num`. Model: `DateTextModel.v`. Theorems in `DateTextProps.v`; status: proved.

* `date_time_accepts` – A date-time is made from exactly the texts that begin with one, and its fields are the numbers in the text.
* `date_time_round_trip` – What is written for a date-time is always defined and gives the same date-time when read.
* `date_time_parts_defined`
* `date_time_canonical` – A text in the form YYYY-MM-DDThh:mm:ssZ (all digits there, the year from 1000 on) is written exactly as it was read.
* `date_text_seconds` – The seconds of a text from 1970 on are those of the calendar (C12).
* `no_date_no_seconds`
* example `date_text_sample`
* `date_time_trailing_refuted` – Not every text that is accepted is a date-time: what comes after the Z is ignored, and every month has 31 days.
* `date_time_february_refuted`
* `date_time_xsd_refuted` – Not every xsd:dateTime is accepted: fractions of a second, time zones and dates alone are refused, and their seconds are those of 1970.
* `date_time_early_refuted` – A year before 1000 is written with fewer than four digits, which xsd:dateTime does not allow.
* `date_time_initial` – Before anything is read into it a DateTime has the fields of its compiled-in text.
* `month_name_read` – The name of a month, long or short and in any mixture of capitals, is that month.
* `month_short_read` – So is what its first three letters stand for, unless the whole name follows.
* example `month_short_sample`

Note: Part of the property is false of the code: see the _refuted theorems; the others state what does hold.

### C114 Fields of elements are independent and have the schema's defaults

In an element object, after any sequence of set, clear and child-adding operations, the getter of a simple field gives the value given last, whatever was done to other fields; a field cleared or never set reports that it is not set and its getter gives the default of the KML schema, so an absent child reads like one with the default written out. (Violated: open; and after a misspelt enumeration value the getter keeps an earlier value.)

Code: `dom/feature.h: Feature`; `dom/overlay.h: GroundOverlay`; `dom/abstractlatlonbox.cc: AbstractLatLonBox::AddElement`; `dom/element.cc: Field::SetEnum, Field::SetDouble`. Model: `AccessModel.v`. Theorems in `AccessProps.v`, `AccessWriteProps.v`, `NumberDomProps.v`; status: proved.

* `set_then_get` – The value given last is the value a field has, whatever was done to it before and to other fields afterwards.
* `clear_then_get` – A field that was cleared is not set, and has the value it has in a new element.
* `other_fields_kept` – What is done to other fields does not change a field; in a new element no field is set.
* `new_element_unset`
* `child_then_get` – A child gives its field the value of its text and nothing else: the text of a string, the truth value, the number or colour, the enumerator; a number that cannot be read leaves the value and sets the field, a word that is none of the enumeration leaves the value and the field is not set.
* example `fields_sample` – Readers used in examples: an integer in decimal or with one zero after the point.
* `unset_default` – A field that is not set has the value of a new element, unless an enumeration was given a word that is not one of its values ...
* `unset_default_refuted` – C114 ... : after two altitudeMode children, the second of them misspelt, the field is not set but keeps the value of the first.
* `absent_is_schema_default` – An element without the child and an element with the default of the schema written out give the same value.
* example `readers_exist`
* `open_default_refuted` – The schema of KML 2.1 gives open the default 1 (kml21.xsd:158); an element without it is not open.
* `attribute_defaults` – A point on the screen or an icon is by default at (1, 1) in fractions, a snippet has two lines (kml21.xsd:102-107, 177; these are attributes).
* `other_defaults` – The texts of a new element are empty, and its numbers are the ones given here or 0.
* example `other_defaults_sample`
* `fields_are_simple_children` – The children the fields are read from are the ones that the element keeps and writes as simple fields of that kind.
* example `fields_are_simple_children_sample`
* `simple_children_have_fields` – Conversely every simple child that an element keeps has its functions: the value is read into a field of the element. The exception is the listItemType of a ListStyle, whose states are kept in another way.
* example `simple_children_have_fields_sample`
* `fields_written` – Whatever simple children an element was given: what it keeps to be written for a field is nothing if its has function is false, and otherwise one simple child with the text of the value of the get function.
* example `numbers_agree_sample` – Number formats that agree exist: here every number is written as 0.
* example `fields_written_sample`
* `fields_written_as_text` – Whatever simple children an element was given: it writes exactly the fields whose has function is true, with the text of the value of the get function.
* example `fields_sample`

Note: Part of the property is false of the code: see the _refuted theorems; the others state what does hold.

### C115 Elements live exactly as long as they are referenced

After any sequence of the calls that create, keep, drop, add and remove elements: every element a caller points to exists, and so does every element below it; an element that nobody points to is deleted at once; and, if no element was ever put below itself, every element that exists can be reached from one the caller points to, so that nothing is left when the caller has dropped all pointers. (Violated if elements were made descendants of themselves: these are never deleted.)

Code: `base/referent.h:Referent`; `base/xml_element.h:SetParent`; `dom/element.h:SetComplexChild`; `dom/element.h:AddComplexChild`; `dom/element.h:DeleteFromArrayAt`. Model: `ParentModel.v`. Theorems in `LifeProps.v`; status: proved.

* `referenced_alive` – After any calls: an element the caller has a pointer to exists, and so do all the elements below an element that exists.
* `descendants_alive`
* `unreferenced_deleted` – An element which nobody points to is deleted at once.
* `nothing_lost` – If no element was put below itself, every element that exists is one the caller has a pointer to, or is below one: nothing is lost.
* `all_deleted` – In particular, when the caller has dropped all pointers no element is left.
* `cycle_leaks_refuted` – Refuted without that condition: two elements that are children of one another are never deleted.
* example `life_sample` – Building a tree and dropping the root: the children go too, unless the caller kept them.
* example `life_kept_sample`

Note: Part of the property is false of the code: see the _refuted theorems; the others state what does hold.

### C116 Old-style schema elements become Placemarks with extended data

Parsing a document in which a Schema with a parent and a name (the KML 2.0 style) stands among the children of the element it is in: the result is the tree of the document in which the Schema has the id NAME_id, each element behind the Schema that has the name the Schema declares is a Placemark with the attributes, text and children of that element, and its children with the names of the SimpleFields are not children but, in their order, the SimpleData of an ExtendedData with one SchemaData whose schemaUrl is NAME_id. Everything else is parsed as it would be without the Schema. (For fields outside of such elements, elements in front of the Schema and more than one Schema this fails.)

Code: `dom/kml_handler.cc: KmlHandler::StartElement, EndElement, FindOldSchemaParentName, HandleOldSchemaEndElement, HandleOldSchemaParentEndElement, ParseOldSchemaChild`; `dom/kml_handler.h: KmlHandler`; `dom/extendeddata.h: ExtendedData, SchemaData, SimpleData`. Model: `AttributesModel.v`, `DomModel.v`, `DomTables.v`, `HandlerModel.v`, `SerializerModel.v`, `XsdModel.v`, `XsdTables.v`. Theorems in `OldPlaceProps.v`; status: proved.

* `old_schema_document` – A document with an old-style Schema (it has a parent and a name) among its children: the parser gives the tree in which the elements behind it that have the name the Schema declares are Placemarks, whose children of the names of its fields are extended data.
* `old_schema_text` – The same for the text of a document.
* example `old_schema_witness`
* `instance_becomes_placemark` – In particular: what becomes of an element named like the Schema.
* `instance_data` – The data are the texts of the children with the names of fields, in their order.
* `old_data_written` – What is written for these data: an ExtendedData with one SchemaData that refers to the Schema, with one SimpleData for each.
* `instance_has_data` – The Placemark made for an element of the schema has these data as its ExtendedData, in place of one given by an ExtendedData element, and is the same as without them otherwise.
* `stray_field_refuted` – Violated for fields that are not in an element of the schema: their texts are kept and given to the next element of the schema.
* `instance_before_schema_refuted` – Violated for elements of the schema in front of the Schema: they stay unknown elements.
* `second_schema_refuted` – Violated with two such Schemas: elements of the first are not recognized any more behind the second.

Note: Part of the property is false of the code: see the _refuted theorems; the others state what does hold.

### C117 Splitting and inlining styles changes nothing but styles

The document made by SplitStyles, and the one made by InlineStyles, is the document that parsing the same text gives, except for the styles and styleUrls of features: with these removed from every feature of both, the two are equal in every element type, attribute, value, coordinate, child, order of children, misplaced element and piece of unknown markup, at whatever depth. Both come to an end for every text that can be parsed in finite time. A document in which no feature outside of Updates has a style of its own is not changed by splitting at all, one without shared styles is not changed by inlining. So doing either a second time, to the text that is written for the first result, gives that result again.

Code: `engine/style_splitter.cc: SplitStyles, StyleSplitter::EndElement`; `engine/style_splitter_internal.h: StyleSplitter`; `engine/style_inliner.cc: InlineStyles, StyleInliner::EndElement`; `engine/style_inliner_internal.h: StyleInliner`; `dom/kml_handler.cc: KmlHandler::EndElement`. Model: `AttributesModel.v`, `CloneModel.v`, `ColorModel.v`, `CoordModel.v`, `DomModel.v`, `DomTables.v`, `HandlerModel.v`, `IdModel.v`, `MergeModel.v`, `SerializerModel.v`, `SplitModel.v`, `StringsModel.v`, `StyleModel.v`, `XsdModel.v`, `XsdTables.v`. Theorems in `BareProps.v`, `SplitTotalProps.v`, `StyleSameProps.v`, `TwiceProps.v`; status: proved.

* `split_only_styles` – Splitting the styles of a document changes nothing but the styles and styleUrls of its features: the document can be read without splitting too, and without styles and styleUrls it is the same document.
* `inline_only_styles` – The same for inlining.
* `parsed_documents` – Every document that is parsed is one of these.
* `bare_sees` – What the comparison sees: type, attributes, text, coordinates, misplaced and unknown contents, and each child that is not for the styles of a feature.
* example `only_styles_sample` – The samples of SplitProps.v and InlineProps.v are such documents, and do change.
* `styles_end` – Splitting and inlining styles come to an end for every document which can be read in finite time at all.
* `split_nothing` – A document whose features have no styles of their own is not changed by splitting at all; what is inside of an Update does not count and is never changed.
* `inline_nothing` – A document without shared styles is not changed by inlining.
* example `behind_sample` – An Update that sets a style, and a document with features behind its Document: the style goes to the Document.
* example `updates_sample`
* `split_written` – An element without Updates whose features have no styles of their own is given back by splitting the text it is written as: splitting a second time changes nothing.
* `inline_written` – The same for inlining and an element whose Documents have no styles with an id.
* example `twice_sample` – What splitting and inlining give for a file with a shared style and a style of a feature satisfies the hypotheses; the file itself does not.

### C118 A file that is saved is what is loaded again

When a KML file that was parsed is saved with KmlFile::SerializeToString and the saved text is parsed again, the elements are those that were saved: the elements first parsed, with the namespace declarations that SerializeToString puts on the root and nothing else different. Saving the loaded file again gives the same text, byte for byte. The same holds when the saved text is packed into an archive with its linked files and read as the default KML file of the archive.

Code: `engine/kml_file.cc: KmlFile::SerializeToString, CreateXmlHeader`; `engine/find_xml_namespaces.cc: FindAndInsertXmlNamespaces`; `dom/parser.cc: Parser::ParseKml`; `engine/kmz_file.cc: KmzFile::WriteKmz, ReadKml`; `base/zip_file.cc: ZipFile::GetEntry`. Model: `FromParseModel.v`, `KmzDiskModel.v`, `KmzFileModel.v`. Theorems in `ArchiveSaveProps.v`, `ArchiveWriteProps.v`, `FromParseProps.v`, `KmzDiskProps.v`, `KmzFileProps.v`, `NumberDomProps.v`, `SaveProps.v`; status: proved.

* `element_written` – So elements that were read from a text, made into an archive together with the files they link to, are what is read from the default file of that archive: with the numbers as doubles and the bytes as minizip writes them.
* example `element_written_sample` – A document with numbers, through such an archive; its other conditions are in sample64_hypotheses.
* `written_kmz` – KmzFile::CreateFromElement and back: an archive made of a document and the files it links to has the document as its default file, and gives each linked file that was packed as it was on the disk.
* example `written_sample` – A decompressor for the example: it copies; and an archive of two files.
* `text_or_archive` – The first four bytes decide, and no KML text is taken for an archive: data that begin as an archive are not a KML text, all others are read as one.
* `packed_element_parsed` – Elements read from a text, packed with the files they link to, and the bytes of the archive given to CreateFromParse: the elements, with all numbers.
* example `from_parse_sample` – The archive of another program, and an archive without entries, which is not taken for one.
* `kmz_on_disk` – An archive made of a document and the files it links to, on a disk with room for it: the file is opened under every name it has, its default file is the document, each file packed is given as it was on the disk, and nothing else on the disk has changed.
* `kml_file_packed` – A KML file on the disk is packed with the files it links to: the archive is opened from the disk, and its default file is read as the element that the KML file is read as, with all numbers. Conditions on the sizes as in kmz_on_disk.
* `kml_file_not_packed` – Reading the file fails, or a path is empty: false, and the disk is as before.
* `bad_file_packed_refuted` – A file that is not KML is not refused: the null pointer is used.
* example `kml_file_packed_sample` – The hypotheses on the document are those of element_written (sample64_hypotheses); a file with such a document, packed.
* `document_saved` – A saved file is what is loaded again.
* `saved_is_loaded` – A file read from a text and saved is, when loaded again, the elements that were saved: those that were read with the namespaces declared that the elements use; nothing else is different, and saving once more gives the same text. Conditions are those of C60: nothing in the elements that is read otherwise than written. The root is not of the few classes outside all namespaces.
* example `saved_is_loaded_sample` – Non-vacuity: a text with a declaration, foreign attributes, unknown and misplaced elements and a prefix of its own.
* example `saved_text_sample`
* `saved_in_archive` – The same through an archive: the saved text, packed as doc.kml in front of any files (kmz_file.cc 192-202 WriteKmz without any), in any archive with these entries, is found as the default KML file and read as the elements saved.
* `element_in_archive` – KmzFile::CreateFromElement and CreateFromKmlFile (kmz_file.cc 224-253) write the element itself, without declarations and namespaces: it is read back as it was.
* example `archive_sample` – Non-vacuity of the archive.

Note: Part of the property is false of the code: see the _refuted theorems; the others state what does hold.

### C119 Relative links lead where RFC 3986 says, inside of archives too

For every URL scheme://host[:port]/d1/.../dn/name and every relative link that goes up k directories and down along segments s1/.../sm, ResolveUri gives scheme://host[:port]/ followed by the directories without the last k (at most up to the root) and the segments; a complete URL resolves to itself, a fragment to the same document, and a result resolves to itself again from any base. For a file inside of an archive the KmlUri of a link names the same archive and the path inside of it. GetFetchableUri gives the URL without query and fragment. A style URL #id finds the shared style id. Refuted: hosts given as IP literals lose their brackets; style ids with bytes that are not URI characters (letters outside of ASCII, spaces) are never found; a style URL with only a host or only a query is taken for a local one.

Code: `base/uri_parser.cc: UriParser::CreateFromParse, CreateResolvedUri, GetPath`; `engine/kml_uri.cc: ResolveUri, KmlUri::CreateRelative, SplitUri, GetFetchableUri`; `engine/style_merger.cc: StyleMerger::MergeStyleUrl`. Model: `UriTextModel.v`. Theorems in `UriTextProps.v`; status: proved.

* `link_resolved` – A link which goes up [k] directories and then down leads to what RFC 3986 says, from the directory of the file it is in, at most up to the root.
* example `link_resolved_sample`
* example `link_resolved_case`
* `absolute_link` – A complete URL leads to itself, whatever file it is in.
* example `absolute_link_sample`
* `fragment_link` – A link that is only a fragment leads into the same document.
* example `fragment_link_sample`
* `resolved_again` – What a relative link is resolved to is a complete URL that is not changed by resolving it again.
* example `resolved_again_sample`
* `link_in_archive` – A link in a file in an archive leads to a file in the same archive, at the path that is meant.
* example `link_in_archive_sample`
* `fetched_url` – What is fetched for a complete URL of a host: all but the query and the fragment.
* example `fetched_url_sample`
* `fetched_literal_refuted` – It is not so for a host given by its number in brackets: the brackets are lost, and what is left is no URL.
* `local_style_url` – A style URL that is only a fragment names a shared style of the same file, if the id is made of what a fragment can be made of.
* example `local_style_url_sample`
* `style_id_refuted` – Not for all ids: a style with an id that is not in ASCII, as XML allows, or with a space, is never found.
* `style_id_space_refuted`
* `style_of_host_refuted` – And a style URL with a host but no path, or only a query, is taken for one of the same file, though it leads to another one.
* `style_of_query_refuted`

Note: Part of the property is false of the code: see the _refuted theorems; the others state what does hold.

### C120 File names become URIs and back, within the memory allocated

Converting any file name of less than 715827880 bytes into a URI, or any URI of less than 2147483647 bytes into a file name, writes no more than was allocated. A name without backslash and NUL comes back unchanged, whatever other bytes it has, and what it is made into is a legal URI reference: a file URL if the name begins with a slash, a relative one otherwise. NormalizeHref leaves names without dot segments as they are. Refuted: for longer names the size to allocate overflows an int; names with a backslash or a drive letter come back as other names.

Code: `base/uri_parser.cc: UriParser::FilenameToUri, UnixFilenameToUri, WindowsFilenameToUri, UriToFilename, UriToUnixFilename, UriToWindowsFilename`; `engine/kml_uri.cc: NormalizeHref`. Model: `UriModel.v`, `UriTextModel.v`. Theorems in `FilenameProps.v`; status: proved.

* `names_in_bounds` – No conversion of a file name of less than 715827880 bytes, or of a URI of less than 2147483647, writes more than was allocated.
* `long_name_refuted` – It is not so for longer ones: the size of what is to be allocated is computed as an int.
* `name_there_and_back` – The URI of a file name without a backslash (and, as in all C strings, without a NUL) is converted back to the name, whatever bytes are in it.
* example `name_there_sample`
* `name_is_uri` – What a name without a backslash is made into is a URI: a file URL with the path for one that begins with a slash, a relative reference otherwise.
* `backslash_refuted` – A name with a backslash, which is a byte like others in a file name here, comes back as another one; so does one with a drive letter.
* `drive_refuted`
* `normalize_href_same` – Normalizing an href that is a name without dot segments changes nothing, if what the library normalizes is changed only in its dot segments, its escapes and the case of letters (RFC 3986 section 6.2.2): a reference with only a path, of unreserved characters and upper case escapes of others, is as it is.
* example `normalize_href_sample`
* `uri_forms` – A URI without the scheme is taken as a path; of a file URL the scheme and an empty host are left out, with one, two or three slashes, and for Windows the slash before the drive or the two before the host are put right.
* `windows_uri_forms`
* example `uri_forms_sample`
* `long_uri_refuted` – A URI of 2147483647 bytes overflows the size as well.
* `huge_uri` – A size that does not fit an int: just below 2^32 it is negative, and nothing is converted; a size above wraps around, and what does not fit into the little that is allocated is written past its end.
* `wrapped_uri_refuted`
* `wrapped_size`
* example `huge_uri_sample`
* `escape_read` – Escapes are read in either case.
* `network_name` – The name of a file in the network of Windows comes back.
* example `network_sample`

Note: Part of the property is false of the code: see the _refuted theorems; the others state what does hold.

### C121 Numbers keep their digits, and what is written for them never drifts

A decimal number in KML is read as the nearest double, and a double is written as the nearest number of 15 significant digits. So a number of up to 15 significant digits (of normal size) is written with exactly its value, any other with a relative error below 6e-15, zero with its sign. Whatever text was read, what is written for it is a decimal number of at most 31 characters, never inf or nan, and reading and writing it again gives the same text; with this the round trip of documents, cloning and saving hold with no assumption on numbers. Integers in range are kept exactly; text that does not begin with a number counts as zero. Refuted: numbers of 16 digits change, not every double is read back from its text, numbers too large become the largest double and integers out of range the nearest int.

Code: `base/string_util.cc: FromString, StringToDouble, ToString`; `base/string_util.h: ToString`; `dom/element.cc: Field::SetDouble, Field::SetInt`; `dom/geometry.cc: Coordinates::ParseVec3, Coordinates::Serialize`; `dom/serializer.h: Serializer::SaveFieldById`. Model: `NumberModel.v`. Theorems in `NumberDomProps.v`, `NumberProps.v`; status: proved.

* `int_kept` – An int is read as what it was written for.
* `int_text_stable` – What is written for an int is the int, whatever text it was read from; the value of a text of digits is its value in the range of int.
* `int_value`
* example `int_sample`
* `int_range_refuted` – An int out of range becomes the nearest one, and a fraction loses what is behind the point.
* `numbers_are_stable` – Numbers are written as numbers, and writing again what was read from what was written gives the same: what the theorems on documents assume of numbers is true.
* `fields_written_as_text` – Whatever simple children an element was given: it writes exactly the fields whose has function is true, with the text of the value of the get function.
* example `fields_sample`
* `document_read_again` – A document is read again from the text it is written as.
* example `sample64_hypotheses`
* example `sample64_text`
* `document_text_stable` – Once written, a document stays the same text however often it is read and written.
* `document_well_formed` – What was read is well formed, with no assumption on numbers.
* `document_cloned` – The clone of what was read is equal to it.
* `document_saved` – A saved file is what is loaded again.
* `element_digits_kept` – The number in a simple element, after any white space, is kept if it has up to 15 significant digits; its text is a numeral of the same value.
* `coordinates_digits_kept` – Whatever number of tuples: each of their numbers of up to 15 digits is written with the value it had in the text, in order; an altitude that is left out is 0.
* example `coordinates_digits_sample`
* `number_written_again` – Whatever double is written: reading the text and writing again gives the same text.
* `number_text_stable` – Whatever text is read as a number: what is written for it stays the same from then on.
* `written_is_numeral` – What is written for a number is a numeral, never inf or nan.
* `read_nearest` – A numeral is read as a double that is as near to it as any (in the range of the normal doubles).
* `digits_kept` – A number of up to 15 significant digits (in the range of the normal doubles, or zero) is written with the value it was read with.
* `zero_kept`
* `number_error` – Any number in the range of the normal doubles is written with a relative error below 6 * 10^-15: a longitude is off by less than 1.1 * 10^-12 degrees.
* example `longitude_sample` – The hypotheses hold of a longitude.
* `written_nearest` – What is written for a double is as near to it as any number of 15 significant digits.
* example `ties_to_even` – Of two doubles equally near, the even one is taken: 2^53 + 1 and 2^53 + 3.
* `sixteen_digits_refuted` – A number of 16 digits is not kept, and neither is every double.
* `double_kept_refuted`
* `out_of_range_refuted` – A number too large becomes the largest double, one too small becomes zero.
* `special_values_refuted` – Doubles that are no numbers, which no text is read as, are written as words, and those are read as zero.
* `no_number_is_zero` – Text which does not begin with a number counts as zero, with or without a sign.
* example `no_number_sample`

Note: Part of the property is false of the code: see the _refuted theorems; the others state what does hold.

### C122 What is written into an archive is what is read from it

For every list of files (name and contents) the bytes that writing them into a new archive gives - local headers, deflated data, central directory and end record as the ZIP format says - open as an archive whose table of contents are these names in the order written, and each name gives the contents of the first file written under it, byte for byte, if that is not empty and not larger than the size allowed, with any compression that RFC 1951 undoes (and there is one for all data). In particular an archive made of an element and the files it links to has the document as its default KML file, gives every packed file as it was on the disk, and the element read from it is the element that was saved, with all numbers. The same through a file on the disk: created under one name and opened under any name of it, with every other file left alone, provided there is room; on a full disk true is returned and the archive is without files (false of the code). A KML file on the disk is packed with the files it links to by KmzFile::CreateFromKmlFilepath, and the default file of the archive is read as the element that the KML file is read as; a file that is missing gives false, and one that is not KML makes the library use a null pointer (false of the code). KmlFile::CreateFromParse tells texts and archives apart by the first four bytes; no KML text is taken for an archive, and an archive is read as the first of its files whose name ends in .kml.

Code: `base/zip_file.cc: ZipFile::AddEntry`; `base/zip_file.cc: ZipFile::GetEntry`; `base/zip_file.cc: ZipFile::OpenFromString`; `base/contrib/minizip/unzip.c`; `engine/kmz_file.cc: KmzFile::CreateFromElement`; `engine/kmz_file.cc: KmzFile::ReadKml`. Model: `FromParseModel.v`, `KmzDiskModel.v`, `KmzFileModel.v`. Theorems in `ArchiveSaveProps.v`, `ArchiveWriteProps.v`, `DeflateProps.v`, `FromParseProps.v`, `KmzDiskProps.v`, `KmzFileProps.v`; status: proved.

* `element_written` – So elements that were read from a text, made into an archive together with the files they link to, are what is read from the default file of that archive: with the numbers as doubles and the bytes as minizip writes them.
* example `element_written_sample` – A document with numbers, through such an archive; its other conditions are in sample64_hypotheses.
* `written_is_zip` – What is written is an archive as the ZIP format says, with these files in this order, as long as it all stays below 2 GB.
* `written_is_read` – An archive that is written and then opened is the list of the files added to it: their names in order, and for each name the data of the first file added under it, if it is not empty and not larger than allowed. All of it less than 88821760 bytes and 19280 files.
* `written_kmz` – KmzFile::CreateFromElement and back: an archive made of a document and the files it links to has the document as its default file, and gives each linked file that was packed as it was on the disk.
* example `written_sample` – A decompressor for the example: it copies; and an archive of two files.
* `rfc1951_inflates` – An inflate as RFC 1951 says meets the contract that the theorems about archives rest on.
* `stored_inflates` – There is a compression for all data.
* `written_rfc1951` – Writing an archive with any compression that RFC 1951 undoes, and reading it.
* example `tables_sample` – The tables leave no gap and have no overlap: each value of a row ends where the next begins, from 3 to 258 and from 1 to 32768.
* example `zlib_samples` – The decoder on data compressed by zlib, with fixed and with dynamic codes, and text behind it.
* example `other_zip_read` – An archive made by another program: two deflated entries and a stored one, read whole with the same zlib in calls of any size.
* `archive_parsed` – Data that are an archive by the ZIP format and RFC 1951, and begin with an entry, are read as the first of its files whose name ends in .kml.
* `packed_element_parsed` – Elements read from a text, packed with the files they link to, and the bytes of the archive given to CreateFromParse: the elements, with all numbers.
* example `from_parse_sample` – The archive of another program, and an archive without entries, which is not taken for one.
* `kmz_on_disk` – An archive made of a document and the files it links to, on a disk with room for it: the file is opened under every name it has, its default file is the document, each file packed is given as it was on the disk, and nothing else on the disk has changed.
* `kmz_full_disk_refuted` – On a disk that gets full CreateFromElement and WriteKmz say true, and what is left is an archive without files.
* `kml_file_packed` – A KML file on the disk is packed with the files it links to: the archive is opened from the disk, and its default file is read as the element that the KML file is read as, with all numbers. Conditions on the sizes as in kmz_on_disk.
* `kml_file_not_packed` – Reading the file fails, or a path is empty: false, and the disk is as before.
* `bad_file_packed_refuted` – A file that is not KML is not refused: the null pointer is used.
* example `kml_file_packed_sample` – The hypotheses on the document are those of element_written (sample64_hypotheses); a file with such a document, packed.

Note: Part of the property is false of the code: see the _refuted theorems; the others state what does hold.

### C123 Files written are read back, and temporary files leave nothing behind

After WriteStringToFile returned true, ReadFileToString gives exactly the bytes written, for files of any size, under every name of the same file, whatever the file and the output string held before, provided the disk had room; every other file reads as before. If either function returns false nothing was changed: not the output string, not the disk. Delete and Exists are true of regular files only, a deleted file is gone under all its names and nothing else is. A temporary file is new, empty and usable by its owner only, the umask of the process is unchanged afterwards, and creating, writing, reading and dropping one leaves the disk as it was. The code does not notice errors of the medium: on a full disk WriteStringToFile returns true with the data cut short, a directory reads as an empty file, a damaged file as its first whole 1024-byte blocks, a link to a directory is packed into an archive as an empty file, and a name with a NUL byte means another file.

Code: `base/file.cc:File::ReadFileToString, File::WriteStringToFile`; `base/file_posix.cc:File::Exists, File::Delete, File::CreateNewTempFile`; `base/tempfile.h:TempFile`. Model: `DiskModel.v`, `KmzDiskModel.v`. Theorems in `DiskProps.v`, `KmzDiskProps.v`; status: proved.

* `read_file_spec` – Reading gives true exactly when there are a name and a string and there is something to open; a regular file on a sound medium is read whole, whatever its size and whatever the string was before; otherwise the string is left as it was.
* `write_file_spec` – Writing fails without changing anything, or leaves the file at its place, with the bytes there was room for, and nothing else changed; a new file can be used as far as the mask of the process allows, another keeps its permissions.
* `write_then_read` – What is written is what is read, under every name that leads to the same place and whatever was there before, as long as the disk has room for it; what is at other places is read as before.
* `delete_spec` – Exists is true of regular files only; Delete succeeds for these only, they are gone afterwards under every name, and nothing else changes.
* `temp_file_spec` – A temporary file is a new and empty file which only its owner can read and write and nobody run; the mask of the process is as before, and so is everything else on the disk. If there is none the disk is not changed.
* `create_temp_fails` – Without a string for the name, or without a new name, there is no temporary file: false, and nothing is changed.
* `drop_temp_spec` – When the object goes the file goes, whatever was written to it; everything else stays as it is then, and a directory or nothing at this name is left alone.
* `temp_file_life` – Creating a temporary file, writing to it and reading it gives the data; dropping it leaves the disk as it was.
* example `disk_sample` – A disk for examples: file a at place 1 and 2, a directory at 3, a damaged file at 4.
* `write_full_disk_refuted` – When the disk is full WriteStringToFile says true, and the data is not in the file.
* `read_error_unnoticed_refuted` – A directory is read as an empty file, a damaged file as a shorter one.
* `nul_in_name_refuted` – A name with a NUL byte is cut there: writing to it overwrites another file.
* `kmz_on_disk` – An archive made of a document and the files it links to, on a disk with room for it: the file is opened under every name it has, its default file is the document, each file packed is given as it was on the disk, and nothing else on the disk has changed.
* `kmz_not_made` – If no archive is made the disk is as before.
* `open_from_file_none` – Opening what is not a file, or not an archive, gives no archive.
* example `kmz_on_disk_sample` – A document with a picture, a link to a directory and one to nothing.
* `directory_packed_refuted` – A link to a directory is packed, as an empty file, which cannot be read from the archive.
* `kmz_full_disk_refuted` – On a disk that gets full CreateFromElement and WriteKmz say true, and what is left is an archive without files.

Note: Part of the property is false of the code: see the _refuted theorems; the others state what does hold.

### C124 Numbers do not depend on the locale, and the locale is left as it was

Inside of any nesting of blocks that begin with a LocaleC object numbers have a decimal point whatever the locale of the process or thread is; outside of them the locale is what it was, no locale is leaked and nothing is freed that is still used. ToString writes integers without separators in every locale. The file names of a regionated document are different for different files in every locale. Not true of the code: when the new locale cannot be allocated, when two LocaleC objects do not end in reverse order, or when the program changes the locale inside of the block, a locale that is not its own is freed; and from the 1000th file on regionated files are not named by their number in a locale with digit separators.

Code: `base/localec.cc:LocaleC`; `base/string_util.h:ToString`; `regionator/regionator.cc:Regionator::RegionFilename`. Model: `LocaleModel.v`. Theorems in `LocaleProps.v`; status: proved.

* `locale_c_blocks` – Inside of blocks with a LocaleC numbers have a decimal point whatever the locale is and however the blocks are nested; afterwards the locale in use is the one before, and no locale is left behind.
* example `german_sample` – A process with a decimal comma.
* `locale_c_no_memory_refuted` – When there is no memory for the new locale the numbers keep the comma, and the end of the block frees the locale of the process or one of somebody else.
* `locale_c_crossed_refuted` – Two objects that end in the order they began in (on the heap): the second end is undefined.
* `locale_c_frees_others_refuted` – A locale that the program itself begins to use inside of the block is freed by its end.
* `to_string_any_locale` – ToString writes the digits of a number in every locale of the program. The names of the files of a regionated document have separators in a locale that has them: the digits are all there, so the names differ as the numbers do, and up to 999 files they are the same in all locales.
* `region_file_digits`
* `region_files_differ`
* `region_file_locale_refuted` – The 1000th file is not called 1000.kml in a locale with separators.
* `freed_locale_undefined` – Every use of a locale that was freed is undefined.

Note: Part of the property is false of the code: see the _refuted theorems; the others state what does hold.

## Trusted base

* The Coq 8.16.1 kernel (with its `vm_compute` machine, used for examples, refutation witnesses and
  finite tables), the standard library, and `coqc` itself. No axioms of our own. The theorems of `GeoProps.v` (C106)
  are about the real numbers of the standard library and so rest on its axioms `ClassicalDedekindReals.sig_not_dec`,
  `ClassicalDedekindReals.sig_forall_dec`, `FunctionalExtensionality.functional_extensionality_dep` and
  `Classical_Prop.classic`; all others are closed. See the list of `Print Assumptions` at the end.
* The models. They were written by reading the source at the pinned commit; the C++ was not compiled or run, and
  nothing was extracted from it automatically. Each definition cites the lines it stands for and says what was left
  out. That a definition says what the C++ says is the part a reader has to check.
* The C++ language rules used in the models: `char` is a byte and signed where the code depends on it;
  reading past the end of a `std::string`, `top()` of an empty container, a null or dangling pointer, reading an
  uninitialised variable and signed overflow are `UB`; `std::map` iterates in byte order of its keys;
  `int` has 32 bits.
* What the theorems assume about libraries, always as explicit hypotheses or section variables and never as axioms:
  `numbers_stable` (printing a number and reading it again gives the same text; proved as `numbers_are_stable` for `E64`, the model in NumberModel.v of reading correctly rounded IEEE doubles and writing 15 digits, as the C++ library is required to do), the
  split of a URI by uriparser, what a fetch returns, the distance of points and the range of a view, `localtime`-free
  calendar arithmetic.
* For C119 and C120 the uriparser library is not a variable but taken to do what RFC 3986 says (`UriRfc.v`, checked with the
  examples of the standard) and, for file names, what its documentation says (`UriTextModel.v`).

### Simplifications that hold throughout

* Expat is the event list of a document tree (`XmlSpec.xevents`, `XmlTree.xt`): ill-formed XML, encodings and entity
  declarations are outside.
* Doubles are texts, elements of an abstract ordered type, or (in `Rounding.v` and the refutations) integers
  standing for binary fractions; in `GeoModel.v` they are real numbers. Nothing is claimed about accuracy.
* Memory exhaustion, stack depth and threads are outside; the file system is in `DiskModel.v` only.
* Address reuse after `delete` is not modelled (`ParentModel.v`).

### Code that is not modelled

* Of `base/contrib/minizip`: zip passwords, the functions `ZipFile` does not call. The writer (`zip.c`) is not in the source
  tree; for C122 what it writes is taken from the ZIP format (`ArchiveWriteProps.v`). Reading is
  modelled (`UnzipModel.v`) on top of a contract for zlib's `inflate`, which a decoder written from RFC 1951 (`DeflateRfc.v`, checked
  with data compressed by zlib and an archive made by another program) is proved to meet (`rfc1951_inflates`). `third_party` and the system libraries: zlib, the
  minizip writer, expat, uriparser, boost.
* Operating system wrappers: `base/file_win32.cc`, `base/time_util.cc`. The kernel's side of files
  (`DiskModel.v`) is what POSIX says, with path resolution as a variable.
* Network: the connection itself (`HttpModel.v`, `ServicesModel.v` have the requests and answers).
* `dom/kml_ptr.h` (pointer types). The getters and setters of `dom/*.h` are modelled by tables of the fields
  (`DomTables.v`, `AccessModel.v`), not one by one.
* `examples/`, `swig/`.

### Code that is modelled, by model file

* `AccessModel.v`: abstractlatlonbox.cc, abstractlatlonbox.h, abstractview.cc, abstractview.h, atom.cc, atom.h, balloonstyle.cc, balloonstyle.h, color32.h, colorstyle.cc, colorstyle.h, element.cc, extendeddata.cc, extendeddata.h, feature.cc, feature.h, geometry.cc, geometry.h, gx_tour.cc, gx_tour.h, iconstyle.cc, iconstyle.h, kml.cc, kml.h, kml22.h, labelstyle.cc, labelstyle.h, linestyle.cc, linestyle.h, link.cc, link.h, liststyle.cc, liststyle.h, model.cc, networklink.cc, networklink.h, networklinkcontrol.cc, networklinkcontrol.h, object.cc, object.h, overlay.cc, overlay.h, polystyle.cc, polystyle.h, region.cc, region.h, schema.cc, schema.h, snippet.cc, snippet.h, string_util.cc, string_util.h, stylemap.cc, stylemap.h, timeprimitive.cc, timeprimitive.h, vec2.cc, vec2.h, xal.cc, xal.h
* `AtomModel.v`: atom.h, atom_util.cc, container.cc, element.cc, element.h, feature.h
* `AttributesModel.v`: attributes.cc, attributes.h, element.cc, element.h
* `BboxModel.v`: bbox.h, location_util.cc, location_util.h
* `CastModel.v`: abstractlatlonbox.h, abstractview.cc, abstractview.h, atom.h, balloonstyle.cc, balloonstyle.h, colorstyle.h, container.h, document.cc, document.h, element.cc, element.h, extendeddata.cc, extendeddata.h, feature.h, folder.cc, folder.h, geometry.cc, geometry.h, gx_timeprimitive.cc, gx_timeprimitive.h, gx_tour.cc, gx_tour.h, hotspot.h, iconstyle.cc, iconstyle.h, kml.cc, kml.h, kml22.h, kml_cast.cc, kml_cast.h, labelstyle.cc, labelstyle.h, linestyle.cc, linestyle.h, link.cc, link.h, liststyle.cc, liststyle.h, model.cc, networklink.cc, networklink.h, networklinkcontrol.cc, networklinkcontrol.h, object.h, overlay.cc, overlay.h, placemark.cc, placemark.h, polystyle.cc, polystyle.h, region.cc, region.h, schema.cc, schema.h, snippet.cc, snippet.h, style.cc, style.h, stylemap.cc, stylemap.h, styleselector.h, substyle.h, timeprimitive.cc, timeprimitive.h, vec2.cc, vec2.h, visitor.cc, xal.h
* `CloneModel.v`: clone.cc, element.cc, extendeddata.cc, geometry.cc, snippet.cc
* `ColorModel.v`: color32.h, string_util.cc
* `CoordModel.v`: geometry.cc, serializer.cc, string_util.cc, vec3.h
* `CsvModel.v`: csv_file.cc, csv_parser.cc, csv_parser.h
* `DateTextModel.v`: date_time.cc
* `DateTimeModel.v`: date_time.cc, date_time.h
* `DiskModel.v`: file.cc, file_posix.cc, tempfile.h
* `DomModel.v`: attributes.h, color32.h, element.cc, element.h, extendeddata.cc, geometry.cc, kml_factory.cc, kml_handler.cc, link.cc, liststyle.cc, snippet.cc, vec2.cc, visitor_driver.cc
* `DomSpec.v`: parser.cc, xml_serializer.cc
* `DomTables.v`: abstractlatlonbox.cc, abstractlatlonbox.h, abstractview.cc, abstractview.h, atom.cc, balloonstyle.cc, balloonstyle.h, colorstyle.cc, colorstyle.h, container.cc, container.h, document.cc, document.h, element.cc, extendeddata.cc, extendeddata.h, feature.cc, feature.h, folder.cc, folder.h, geometry.cc, geometry.h, gx_timeprimitive.cc, gx_timeprimitive.h, gx_tour.cc, gx_tour.h, hotspot.h, iconstyle.cc, iconstyle.h, kml.cc, kml_cast.cc, labelstyle.cc, labelstyle.h, linestyle.cc, linestyle.h, link.cc, link.h, liststyle.cc, liststyle.h, model.cc, networklink.cc, networklink.h, networklinkcontrol.cc, object.cc, object.h, overlay.cc, overlay.h, placemark.cc, placemark.h, polystyle.cc, polystyle.h, region.cc, region.h, schema.cc, schema.h, snippet.cc, style.cc, style.h, stylemap.cc, stylemap.h, styleselector.h, substyle.cc, substyle.h, timeprimitive.cc, timeprimitive.h, vec2.cc, vec2.h, xal.cc
* `DoublesMore.v`: bbox.h
* `EntityModel.v`: entity_mapper.cc, extendeddata.h, feature.h, feature_balloon.cc, kml_uri.cc, schema.h
* `ExpatModel.v`: expat_handler.h, expat_handler_ns.cc, expat_parser.cc, kml_handler.cc, kml_handler_ns.cc, parser.cc, xsd_file.cc, xsd_file.h, xsd_handler.cc
* `FeatureListModel.v`: bbox.h, convenience.cc, element.cc, feature_list.cc, feature_list_region_handler.cc, feature_list_regionator.h, regionator.cc, regionator_qid.h, regionator_util.cc
* `FileModel.v`: get_link_parents.cc, get_link_parents.h, get_links.cc, get_links.h, kml_file.cc, object.cc, object.h, object_id_parser_observer.h, schema_parser_observer.h, shared_style_parser_observer.h
* `FindModel.v`: element.cc, feature_visitor.cc, find.cc, iconstyle.h, link_util.h, serializer.h
* `FromParseModel.v`: kml_file.cc, kmz_file.cc, unzip.h, zip_file.cc
* `GeoModel.v`: math_util.cc
* `GpxModel.v`: attributes.cc, gpx_trk_pt_handler.h, vec3.h
* `HandlerModel.v`: attributes.cc, expat_parser.cc, kml_factory.cc, kml_handler.cc, kml_handler.h, parser.cc, parser_observer.h
* `HttpModel.v`: http_client.cc, http_client.h
* `IdModel.v`: element.cc, id_mapper.cc, object.h
* `ImportModel.v`: kml_file.cc, kml_file.h, xml_element.h
* `KmlCacheModel.v`: kml_cache.cc, kml_cache.h, kml_file.cc, kmz_cache.cc, kmz_cache.h, kmz_file.cc, link_util.cc, memory_file.h, net_cache.h
* `KmzDiskModel.v`: kmz_file.cc, zip_file.cc
* `KmzFileModel.v`: kml_file.cc, kmz_file.cc
* `KmzModel.v`: kml_cache.cc, kml_uri_internal.h, kmz_cache.cc, kmz_cache.h, kmz_file.cc, zip_file.cc
* `LinkCheckModel.v`: href.h, kmz_check_links.cc
* `LocaleModel.v`: localec.cc, localec.h, regionator.cc, string_util.h
* `MapsModel.v`: container.cc, google_maps_data.cc, google_spreadsheets.cc, http_client.h, kml_file.cc, mimetypes.cc
* `MergeModel.v`: find.cc, geometry.cc, merge.cc
* `NamespaceModel.v`: atom.cc, element.cc, extendeddata.cc, find_xml_namespaces.cc, geometry.cc, gx_timeprimitive.cc, gx_tour.cc, kml.cc, kml_file.cc, networklinkcontrol.cc, object.cc, overlay.cc, schema.cc, snippet.cc, xal.cc, xml_element.h, xml_namespaces.cc, xml_namespaces.h, xml_serializer.h
* `NetCacheModel.v`: net_cache.h
* `NsModel.v`: expat_handler.h, expat_handler_ns.cc, expat_parser.cc, kml_handler.cc, kml_handler_ns.cc, parser.cc, xmlns.h
* `NumberModel.v`: string_util.cc, string_util.h
* `OldSchemaModel.v`: old_schema_parser_observer.h, parse_old_schema.cc
* `ParentModel.v`: element.h, referent.cc, referent.h, xml_element.h
* `PathModel.v`: file.cc, zip_file.cc, zip_file.h
* `RegionLinkModel.v`: abstractlatlonbox.cc, abstractlatlonbox.h, regionator_util.cc
* `Rounding.v`: bbox.h
* `SaverModel.v`: element_counter.h, kml_feature_list_saver.h, parser_observer.h
* `SerializerModel.v`: element.cc, serializer.cc, serializer.h, string_util.h, xml_serializer.cc, xml_serializer.h
* `ServicesModel.v`: google_doc_list.cc, google_maps_data.cc, google_picasa_web.cc, google_spreadsheets.cc, http_client.cc
* `SimplifyModel.v`: convenience.cc, math_util.cc
* `SplitModel.v`: style_inliner.cc, style_resolver.cc, style_splitter.cc, style_splitter_internal.h
* `StatsModel.v`: balloonstyle.cc, colorstyle.cc, liststyle.cc, overlay.cc, serializer.cc, serializer.h, stats_serializer.h
* `StreamModel.v`: expat.h, expat_parser.cc, kml_handler.cc, kml_stream.cc, parser.cc
* `StringsModel.v`: csv_splitter.cc, string_util.cc
* `StyleModel.v`: document.cc, engine_constants.h, feature.h, style_merger.cc, style_resolver.cc, stylemap.h, uri_parser.cc
* `TourModel.v`: convenience.cc, feature_view.cc, object.h, vec3.h
* `UnzipModel.v`: unzip.h, zip_file.cc
* `UpdateModel.v`: container.cc, element.cc, element.h, update.cc, update_processor.cc, xml_element.h
* `UriModel.v`: href.cc, href.h, kml_uri.cc, kml_uri.h, uri_parser.cc
* `UriRfc.v`: uri_parser.cc
* `UriTextModel.v`: kml_uri.cc, style_inliner.cc, style_merger.cc, uri_parser.cc
* `ViewModel.v`: abstractlatlonbox.cc, feature_view.cc, geometry.h, location_util.cc, math_util.cc, model.cc
* `WholeUpdateModel.v`: networklinkcontrol.cc, networklinkcontrol.h, update_processor.cc
* `XsdFileModel.v`: attributes.cc, xmlns.h, xsd_complex_type.h, xsd_element.cc, xsd_element.h, xsd_file.cc, xsd_file.h, xsd_handler.cc, xsd_handler.h, xsd_primitive_type.cc, xsd_primitive_type.h, xsd_schema.h, xsd_simple_type.h, xsd_type.h
* `XsdModel.v`: kml22.h, xsd.cc
* `XsdTables.v`: kml22.cc, kml22.h, xsd.h
* `XstModel.v`: xsd_complex_type.h, xsd_file.h, xsd_util.cc, xst_parser.cc

### Print Assumptions

`Closed under the global context`:

`ColorProps.color_text_round_trip`, `ColorProps.color_text_canonical`, `ColorProps.color_channels_independent`, `ColorProps.color_argb_round_trip`, `ColorProps.color_from_bytes`, `ColorProps.color_parse_correct`, `ColorProps.color_parse_short_prefixed_refuted`, `ColorProps.color_parse_in_bounds_refuted`, `StringsProps.expansion_terminates`, `StringsProps.expansion_replaces_all`, `StringsProps.replacement_spec_deterministic`, `StringsProps.expansion_shorter_value_refuted`, `StringsProps.expansion_value_contains_key_refuted`, `StringsProps.split_single_lossless`, `StringsProps.split_single_of_join`, `StringsProps.split_terminates`, `StringsProps.split_empty_separator_refuted`, `StringsProps.split_long_separator_refuted`, `StringsProps.csv_quoted_round_trip`, `StringsProps.csv_split_terminates`, `StringsProps.csv_plain_round_trip`, `StringsProps.csv_lines_correct`, `StringsProps.ends_with_iff_suffix`, `StringsProps.case_equal_equivalence`, `StringsProps.case_equal_is_lower_equal`, `StringsProps.case_equal_nul_refuted`, `AttributesProps.attributes_are_maps`, `AttributesProps.attributes_cut_returns`, `AttributesProps.attributes_split_returns`, `AttributesProps.attributes_find_key`, `AttributesProps.attributes_from_vector`, `AttributesProps.attributes_serialize_read_back`, `AttributesProps.attributes_serialize_quote_refuted`, `AttributesProps.attributes_serialize_ampersand_refuted`, `NetCacheProps.net_cache_is_fifo_queue`, `NetCacheProps.net_cache_bounded`, `NetCacheProps.net_cache_save_visible`, `NetCacheProps.net_cache_refetch_is_hit`, `NetCacheProps.net_cache_zero_capacity_refuted`, `NetCacheProps.net_cache_null_item_refuted`, `DateTimeProps.date_time_seconds`, `DateTimeProps.date_time_leap_years`, `DateTimeProps.date_time_monotone`, `DateTimeProps.date_time_before_1970_refuted`, `DateTimeProps.date_time_before_1970_as_1970`, `PathProps.path_split`, `PathProps.path_split_no_dir`, `PathProps.path_split_total`, `PathProps.path_split_join`, `PathProps.path_join_split`, `PathProps.path_join_separator`, `PathProps.path_join_assoc`, `PathProps.path_split_join_double_refuted`, `PathProps.path_split_join_trailing_refuted`, `PathProps.entry_name_safe_without_dotdot`, `PathProps.entry_name_absolute_rejected`, `PathProps.entry_name_escape_refuted`, `PathProps.entry_name_dot_escape_refuted`, `PathProps.entry_name_harmless_rejected_refuted`, `ParentProps.at_most_one_parent`, `ParentProps.child_occurs_once`, `ParentProps.never_adopted_twice`, `ParentProps.adopted_in_same_file`, `ParentProps.children_forest`, `ParentProps.cycle_refuted`, `ParentProps.self_child_refuted`, `ParentProps.child_knows_parent`, `ParentProps.fresh_no_parent`, `ParentProps.calls_defined`, `ParentProps.calls_do`, `ParentProps.removed_not_reusable_refuted`, `ParentProps.dangling_parent_refuted`, `XsdProps.element_id_correct`, `XsdProps.element_names_distinct`, `XsdProps.element_id_name_id`, `XsdProps.element_name_id_name`, `XsdProps.element_name_total`, `XsdProps.element_name_icon_refuted`, `XsdProps.enum_value_round_trip`, `XsdProps.enum_accepted_text`, `XsdProps.enum_value_out_of_range_refuted`, `SerializerProps.serializer_total`, `SerializerProps.serialize_raw_well_formed`, `SerializerProps.serialize_indented_well_formed`, `SerializerProps.unbalanced_end_refuted`, `SerializerProps.field_value_survives`, `SerializerProps.quoted_value_survives`, `SerializerProps.value_with_cdata_end_refuted`, `SerializerProps.value_cdata_two_ampersands_refuted`, `SerializerProps.value_cdata_quote_refuted`, `SerializerProps.value_carriage_return_refuted`, `SerializerProps.value_control_character_refuted`, `HandlerProps.parse_builds_tree`, `HandlerProps.parse_text_builds_tree`, `HandlerProps.tree_known_child`, `HandlerProps.tree_unknown_child`, `HandlerProps.tree_description`, `HandlerProps.known_root_parses`, `HandlerProps.unknown_root_rejected`, `HandlerProps.nested_description_refuted`, `HandlerProps.too_deep_rejected`, `HandlerProps.result_depth`, `HandlerProps.parse_stack_bounded`, `HandlerProps.stack_bound_refuted`, `HandlerProps.notifications_in_order`, `HandlerProps.veto_removes_child`, `HandlerProps.observers_exact`, `HandlerProps.stop_is_final`, `HandlerProps.add_child_after_veto_refuted`, `StreamProps.stop_empty_tag_refuted`, `CoordProps.coordinates_parsed`, `CoordProps.coordinates_terminate`, `CoordProps.decimal_literals_are_numbers`, `CoordProps.coordinates_hang_refuted`, `CoordProps.newline_separated_refuted`, `CoordProps.space_before_comma_refuted`, `CoordProps.leading_point_refuted`, `CoordProps.lone_minus_refuted`, `CoordProps.long_token_refuted`, `CoordProps.token_limit`, `NumberDomProps.coordinates_digits_kept`, `CoordProps.pretty_coordinates_round_trip`, `CoordProps.pretty_coordinates_document`, `CoordProps.raw_coordinates_one`, `CoordProps.raw_coordinates_refuted`, `DomProps.preorder_visits`, `DomProps.postorder_visits`, `DomProps.visited_child_lists`, `DomProps.visit_author_refuted`, `StyleProps.resolve_precedence`, `StyleProps.resolve_inline_over_shared`, `StyleProps.resolve_document`, `StyleProps.pair_state`, `InlineTotalProps.resolve_defined`, `StyleProps.resolve_terminates`, `StyleProps.url_limit_total`, `StyleProps.url_limit_nesting_refuted`, `MergeProps.merge_correct`, `MergeProps.merge_same`, `MergeProps.merge_text_refuted`, `MergeProps.merge_pairs_refuted`, `MergeProps.merge_track_refuted`, `SplitProps.split_preserves`, `SplitProps.split_complete`, `SplitProps.split_own_id_refuted`, `SplitProps.split_used_id_refuted`, `SplitProps.split_dangling_refuted`, `SplitProps.split_late_reference_refuted`, `SplitProps.split_two_styles_refuted`, `SplitTotalProps.split_defined`, `SplitTotalProps.split_keeps_looks`, `StyleSameProps.split_any_defined`, `InlineProps.inline_preserves`, `InlineProps.inline_forward_reference_refuted`, `InlineProps.inline_document_reference_refuted`, `InlineProps.inline_both_refuted`, `InlineProps.inline_map_reference_refuted`, `InlineTotalProps.inline_defined`, `InlineTotalProps.inline_keeps_looks`, `FileProps.object_by_id_correct`, `FileProps.strict_parse_iff_distinct`, `IdProps.import_object_by_id`, `IdProps.import_strict_iff_distinct`, `IdProps.clear_ids_correct`, `IdProps.clear_ids_all`, `IdProps.clear_ids_duplicate_refuted`, `IdProps.clear_ids_misplaced_refuted`, `UpdateProps.delete_correct`, `UpdateProps.delete_equal_ids_refuted`, `UpdateProps.delete_misplaced_refuted`, `CloneProps.clone_parsed`, `CloneProps.clone_correct`, `CloneProps.clone_simple_refuted`, `CloneProps.clone_misplaced_refuted`, `CloneProps.clone_empty_text_refuted`, `CloneProps.clone_link_refuted`, `NumberDomProps.document_cloned`, `UriProps.kmz_split_path`, `UriProps.kmz_split_archive`, `UriProps.kmz_split_none`, `UriProps.kmz_split_shape`, `UriProps.kmz_split_lost_byte_refuted`, `UriProps.texture_relative_to_model`, `UriProps.texture_without_model`, `UriProps.uri_parts`, `UriProps.href_relative`, `UriProps.href_relative_path`, `UriProps.href_absolute_exact`, `UriProps.href_absolute_fragment_refuted`, `UriProps.href_host_only_refuted`, `UriProps.href_fragment`, `BboxProps.bbox_contains_points`, `BboxProps.bbox_keeps_contents`, `BboxProps.bbox_smallest`, `BboxProps.bbox_order_irrelevant`, `BboxProps.bbox_expand_from`, `BboxProps.bbox_expand_empty_refuted`, `BboxProps.bbox_nan_ignored`, `BboxProps.feature_bounds_exact`, `BboxProps.feature_place`, `BboxProps.align_gives_cell`, `BboxProps.align_depth_refuted`, `EntityProps.labels_correct`, `EntityProps.labels_leak_refuted`, `EntityProps.labels_undeclared_refuted`, `FeatureListProps.bbox_split_partition`, `FeatureListProps.bbox_split_exhausts`, `FeatureListProps.region_split_without_box`, `FeatureListProps.sort_correct`, `FeatureListProps.sort_determined`, `FeatureListProps.sort_idempotent`, `CsvProps.csv_parse_correct`, `CsvProps.csv_bad_header`, `CsvProps.csv_blank_text`, `CsvProps.csv_parse_total`, `CsvProps.csv_line_numbers`, `CsvProps.csv_blank_line_refuted`, `CsvProps.csv_quoted_line_end_refuted`, `SimplifyProps.simplify_keeps`, `SimplifyProps.simplify_dropped`, `SimplifyProps.simplify_no_tolerance`, `SimplifyProps.simplify_close_refuted`, `SimplifyProps.simplify_ring_refuted`, `SimplifyProps.simplify_again_refuted`, `GpxProps.gpx_points_correct`, `GpxProps.gpx_missing_coordinates_refuted`, `GpxProps.gpx_blank_number_refuted`, `GpxProps.gpx_no_coordinates_no_points`, `FeatureListProps.regionate_complete`, `FeatureListProps.regionate_exact`, `FeatureListProps.regionate_names`, `FeatureListProps.regionate_links`, `FeatureListProps.regionate_root`, `FeatureListProps.regionate_order`, `FeatureListProps.regionate_full`, `FeatureListProps.regionate_list_complete`, `FeatureListProps.regionate_owned_refuted`, `FeatureListProps.regionate_stop_refuted`, `FeatureListProps.regionate_stopped`, `FeatureListProps.regionate_root_name_refuted`, `FeatureListProps.qid_distinct`, `FeatureListProps.qid_depth_distance`, `FeatureListProps.child_regions_inside`, `FeatureListProps.child_regions_cover`, `FeatureListProps.child_regions_meet`, `FeatureListProps.node_inside_ancestor`, `FeatureListProps.midpoint_between`, `FeatureListProps.child_regions_overflow_refuted`, `RegionLinkProps.child_region_correct`, `RegionLinkProps.region_link_correct`, `FeatureListProps.outline_closed_refuted`, `XsdFileProps.hierarchy_correct`, `XsdFileProps.hierarchy_terminates_iff`, `XsdFileProps.search_correct`, `XsdFileProps.search_cyclic`, `XsdFileProps.elements_of_type_correct`, `XsdFileProps.hierarchy_cyclic_refuted`, `StringsProps.bool_text_round_trip`, `StringsProps.bool_text_accepts`, `StringsProps.decimal_text_accepts`, `AttributesProps.unknown_attributes_survive`, `AttributesProps.unknown_attributes_reserved_refuted`, `AttributesProps.unknown_attributes_second_batch_refuted`, `PathProps.zip_find_first`, `PathProps.zip_get_entry`, `PathProps.zip_data_detection`, `XsdProps.type_string_correct_below`, `XsdProps.type_string_wrong_refuted`, `XsdProps.type_string_out_of_bounds_refuted`, `SerializerProps.pretty_text_content_refuted`, `HandlerProps.parse_never_crashes`, `HandlerProps.old_schema_crash_refuted`, `NsProps.parse_atom_root_refuted`, `NsProps.parse_atom_deep_refuted`, `HandlerProps.simple_attributes_dropped`, `CoordProps.gx_coord_round_trip`, `CoordProps.gx_coord_spacing_refuted`, `CoordProps.gx_coord_extra_ignored`, `CoordProps.gx_coord_trailing_space_refuted`, `DomProps.read_write_read`, `DomProps.read_pretty_read`, `DomProps.write_read`, `DomProps.parsed_well_formed`, `DomProps.pretty_is_stable`, `NumberDomProps.document_read_again`, `NumberDomProps.document_text_stable`, `NumberDomProps.document_well_formed`, `DomProps.locality_name_lost_refuted`, `DomProps.every_other_slot_written`, `DomProps.enum_value_lost_refuted`, `DomProps.enum_value_kept`, `DomProps.simple_markup_lost_refuted`, `DomProps.simple_attributes_lost_refuted`, `DomProps.link_marks_drift_refuted`, `DomProps.link_without_marks_kept`, `DomProps.link_unmarked_once`, `DomProps.last_child_wins`, `DomProps.last_value_wins`, `DomProps.blank_number_keeps_previous`, `DomProps.last_value_wins_refuted`, `DomProps.child_is_kept`, `DomProps.snippet_child_lost_refuted`, `UriProps.fetchable_plain`, `UriProps.fetchable_ignores`, `UriProps.archive_query_lost_refuted`, `UriProps.fetchable_no_host_refuted`, `KmzProps.fetch_inside_first`, `KmzProps.fetch_plain`, `KmzProps.fetch_beside`, `KmzProps.fetch_archive_document`, `KmzProps.fetch_missing_absolute_refuted`, `KmzProps.archive_read_back`, `KmzProps.archive_empty_file_refuted`, `KmzProps.archive_same_name_refuted`, `KmzProps.archive_name_test_refuted`, `KmzProps.pack_error_count`, `KmzProps.kmz_packed`, `KmzProps.kmz_files_once`, `KmzProps.kmz_document`, `KmzProps.kmz_doc_link_refuted`, `FeatureListProps.ext_add_new`, `FeatureListProps.ext_add_other`, `FeatureListProps.ext_add_again_refuted`, `FeatureListProps.ext_set_read`, `FeatureListProps.ext_set_erases_refuted`, `XsdFileProps.xsd_parse_correct`, `XsdFileProps.xsd_anonymous_type_refuted`, `XsdFileProps.xsd_nested_type_refuted`, `XsdFileProps.xsd_root_element_refuted`, `XsdFileProps.children_correct`, `XsdFileProps.children_of_base_refuted`, `XsdFileProps.element_declaration`, `XsdFileProps.reference_declaration`, `XsdFileProps.hierarchy_no_schema`, `XsdFileProps.search_no_schema`, `XsdFileProps.primitive_base_refuted`, `XsdFileProps.element_id_vector_correct`, `XsdFileProps.element_id_all_refuted`, `SimplifyProps.circle_vertices`, `SimplifyProps.circle_even_refuted`, `SimplifyProps.circle_covers_refuted`, `CsvProps.csv_file_correct`, `CsvProps.csv_file_empty_line_refuted`, `CsvProps.csv_file_bad_number_refuted`, `EntityProps.entity_map_correct`, `EntityProps.entity_map_distinct`, `EntityProps.entity_own_name_refuted`, `EntityProps.balloon_total`, `EntityProps.balloon_style_text`, `EntityProps.balloon_default`, `EntityProps.balloon_cells_refuted`, `FileProps.shared_style_correct`, `FileProps.unnamed_shared_style_refuted`, `FileProps.get_links_correct`, `FileProps.get_relative_links_correct`, `FileProps.link_parents_are`, `FileProps.link_parents_correct`, `IdProps.remap_ids_correct`, `UpdateProps.change_correct`, `UpdateProps.change_unknown`, `UpdateProps.target_id_spec`, `UpdateProps.update_not_in_map`, `UpdateProps.create_correct`, `UpdateProps.created_unknown_refuted`, `RemoteStyleProps.remote_style_same`, `RemoteStyleProps.remote_style_alone`, `RemoteStyleProps.remote_icon_refuted`, `StyleProps.remote_style_map_refuted`, `NamespaceProps.namespaces_declared`, `NamespaceProps.namespaces_change_root_only`, `NamespaceProps.namespaces_only_used`, `NamespaceProps.namespaces_once`, `NamespaceProps.serialize_file_twice`, `NamespaceProps.simple_prefix_undeclared_refuted`, `NamespaceProps.misplaced_prefix_undeclared_refuted`, `NamespaceProps.namespace_replaced_refuted`, `NamespaceProps.empty_file_refuted`, `NamespaceProps.namespace_table`, `NamespaceProps.stream_text`, `NamespaceProps.string_text`, `LinkCheckProps.links_checked`, `LinkCheckProps.links_check_no_document`, `LinkCheckProps.own_reference_missing_refuted`, `LinkCheckProps.packed_archive_checked`, `LinkCheckProps.packed_archive_refuted`, `NsProps.xmlns_table_correct`, `NsProps.translate_correct`, `NsProps.translate_plain`, `NsProps.parse_atom_correct`, `NsProps.parse_ns_correct`, `NsProps.prefixes_irrelevant`, `NsProps.atom_foreign_unknown`, `NsProps.parse_atom_text_correct`, `NsProps.parse_ns_text_correct`, `NsProps.ns_foreign_taken_refuted`, `NsProps.ns_gx_lost_refuted`, `NsProps.parse_by_prefix_refuted`, `NsProps.atom_foreign_written_refuted`, `AtomProps.rel_url_correct`, `AtomProps.link_correct`, `AtomProps.category_correct`, `AtomProps.entry_by_title_correct`, `AtomProps.next_feed_correct`, `AtomProps.entry_for_feature_correct`, `AtomProps.feed_features_correct`, `AtomProps.resource_id_correct`, `AtomProps.resource_id_refuted`, `AtomProps.feed_changed_refuted`, `AtomProps.feed_twice_refuted`, `AtomProps.container_link_refuted`, `AtomProps.entry_feature_second_refuted`, `AtomProps.basic_link_written`, `AtomProps.basic_entry_written`, `StreamProps.pieces_irrelevant`, `StreamProps.stream_correct`, `StreamProps.stream_malformed`, `StreamProps.stream_blocks`, `StreamProps.string_correct`, `StreamProps.stream_not_good_refuted`, `StreamProps.stream_broken_refuted`, `StreamProps.empty_text_refuted`, `OldSchemaProps.old_schema_converted`, `OldSchemaProps.old_schema_other`, `OldSchemaProps.old_schema_parsed`, `OldSchemaProps.instances_added`, `OldSchemaProps.instances_elsewhere`, `OldSchemaProps.old_schema_not_converted_refuted`, `OldSchemaProps.old_schema_nested_refuted`, `OldSchemaProps.old_schema_data_refuted`, `OldSchemaProps.old_schema_placemarks`, `HttpProps.header_found`, `HttpProps.header_added`, `HttpProps.headers_appended`, `HttpProps.client_named`, `HttpProps.request_text`, `HttpProps.request_defined_iff`, `HttpProps.request_none_refuted`, `HttpProps.login_request`, `HttpProps.login_correct`, `HttpProps.login_failed`, `HttpProps.login_token_refuted`, `HttpProps.login_data_refuted`, `HttpProps.login_data_distinct`, `HttpProps.login_again_refuted`, `HttpProps.header_case_refuted`, `HttpProps.method_names`, `FindProps.elements_found`, `FindProps.descendants_found`, `FindProps.children_found`, `FindProps.find_misplaced_refuted`, `FindProps.find_root_refuted`, `FindProps.features_visited`, `FindProps.root_feature_correct`, `FindProps.visit_update_refuted`, `MapsProps.map_kml_correct`, `MapsProps.map_kml_clones`, `MapsProps.document_of_feeds`, `MapsProps.feed_loop_refuted`, `MapsProps.add_feature_correct`, `MapsProps.add_feature_defined`, `MapsProps.post_duplicate_refuted`, `MapsProps.create_map_correct`, `MapsProps.post_placemarks_correct`, `MapsProps.post_placemark_root`, `MapsProps.post_no_geometry_refuted`, `MapsProps.search_feed_uri_correct`, `MapsProps.search_feed_uri_none`, `MapsProps.search_feed_query_refuted`, `MapsProps.search_box_uri`, `MapsProps.search_box_append_refuted`, `MapsProps.kml_uri_correct`, `MapsProps.kml_uri_no_query_refuted`, `MapsProps.download_correct`, `MapsProps.download_none`, `MapsProps.post_table_correct`, `MapsProps.post_kml_correct`, `MapsProps.document_not_copied`, `FieldProps.boolean_child`, `FieldProps.colour_child`, `FieldProps.enum_child`, `FieldProps.states_child`, `FieldProps.states_newline_refuted`, `FieldProps.link_open_marks`, `FieldProps.link_short_marks`, `FieldProps.link_end_lost_refuted`, `FieldProps.text_child`, `FieldProps.number_child`, `FieldProps.blank_number_child`, `NumberDomProps.element_digits_kept`, `SaverProps.features_saved`, `SaverProps.listed_features`, `SaverProps.rest_without_features`, `SaverProps.saved_whole`, `SaverProps.rebase_correct`, `SaverProps.rebase_nothing`, `SaverProps.listed_elements`, `SaverProps.styles_saved`, `SaverProps.save_features_correct`, `SaverProps.rebase_short_refuted`, `SaverProps.saved_update_refuted`, `SaverProps.saved_root_refuted`, `SaverProps.elements_counted`, `SaverProps.count_hidden_refuted`, `SaverProps.schemas_by_name`, `KmlCacheProps.cached_data_same`, `KmlCacheProps.cached_icon_same`, `LinkFetchProps.icon_followed`, `LinkFetchProps.icon_in_archive`, `LinkFetchProps.packed_icon`, `KmlCacheProps.cached_kml_genuine`, `KmlCacheProps.cached_kml_content`, `KmlCacheProps.cached_kml_again`, `KmlCacheProps.cached_link`, `KmlCacheProps.cached_absolute`, `KmlCacheProps.archive_again_refuted`, `KmlCacheProps.linked_archive_refuted`, `LinkFetchProps.address_fetched`, `LinkFetchProps.link_followed`, `LinkFetchProps.link_to_archive`, `LinkFetchProps.link_into_archive`, `LinkFetchProps.url_fetched`, `LinkFetchProps.packed_document`, `ArchiveWriteProps.written_is_zip`, `DeflateProps.inflate_prefix`, `DeflateProps.inflate_enough`, `DeflateProps.rfc1951_inflates`, `DeflateProps.stored_inflates`, `DeflateProps.archive_rfc1951`, `UnzipProps.archive_listed`, `UnzipProps.archive_opened`, `UnzipProps.archive_entry_read`, `UnzipProps.archive_is_list`, `UnzipProps.archive_exists`, `UnzipProps.archive_local_header`, `UnzipProps.archive_checksum_refuted`, `UnzipProps.archive_long_name_refuted`, `UnzipProps.archive_long_comment_refuted`, `UnzipProps.archive_comment_record_refuted`, `UnzipProps.archive_case_refuted`, `UnzipProps.upper_same`, `UnzipProps.small_archive`, `UnzipProps.archive_position_refuted`, `DeflateProps.rfc1951_progresses`, `DeflateProps.damaged_rfc1951`, `FromParseProps.any_data_parsed`, `FromParseProps.any_data_rfc1951`, `FromParseProps.overlong_parsed_refuted`, `KmzDiskProps.open_from_file_none`, `UnzipProps.damaged_open`, `UnzipProps.damaged_open_refuted`, `UnzipProps.damaged_read`, `UnzipProps.memory_read_inside`, `UnzipProps.archive_parts_empty`, `WholeUpdateProps.update_in_turn`, `WholeUpdateProps.update_changed_id_refuted`, `WholeUpdateProps.update_created_refuted`, `ServicesProps.service_headers`, `ServicesProps.service_addresses`, `ServicesProps.service_scope`, `ServicesProps.services_distinct`, `ServicesProps.service_names`, `ServicesProps.service_variables`, `ServicesProps.meta_feed_address`, `ServicesProps.service_version`, `ServicesProps.default_addresses`, `ServicesProps.scope_variables`, `ServicesProps.meta_feed_correct`, `ServicesProps.service_version_refuted`, `ServicesProps.service_empty_scope_refuted`, `ServicesProps.download_address_refuted`, `ServicesProps.download_address_distinct`, `ViewProps.view_inside`, `ViewProps.view_of_place`, `ViewProps.view_range`, `ViewProps.places_correct`, `ViewProps.view_refuted`, `TourProps.move_point_correct`, `TourProps.move_line_refuted`, `TourProps.fly_to_correct`, `TourProps.fly_to_feature_correct`, `TourProps.computed_view_element`, `TourProps.view_elements`, `TourProps.region_element`, `TourProps.placemark_elements`, `TourProps.wait_element`, `TourProps.move_element`, `CastProps.is_a_derives`, `CastProps.cast_correct`, `CastProps.cast_array_field_refuted`, `CastProps.visit_one`, `CastProps.visit_nearest`, `CastProps.visit_hotspot_refuted`, `XstProps.xst_alias_correct`, `XstProps.xst_text_lines`, `XstProps.xst_idempotent`, `XstProps.xst_space_refuted`, `XstProps.xsd_create_correct`, `ImportProps.import_fails_iff`, `ImportProps.import_lookup`, `ImportProps.import_of_parsed`, `ImportProps.import_replaced_refuted`, `ImportProps.import_style_refuted`, `ImportProps.import_order_refuted`, `ExpatProps.text_utf8`, `ExpatProps.name_utf8`, `ExpatProps.bytes_kept`, `ExpatProps.surrogates_refuted`, `ExpatProps.entity_declaration_rejected`, `ExpatProps.entity_declaration_rejected_blocks`, `ExpatProps.entity_declaration_no_element`, `ExpatProps.no_entity_declaration`, `ExpatProps.xsd_no_entity_declaration`, `ExpatProps.xsd_empty_refuted`, `ExpatProps.xsd_no_schema_refuted`, `ExpatProps.text_past_end`, `ExpatProps.name_past_end`, `ExpatProps.target_namespace_read`, `StatsProps.stats_count_written`, `StatsProps.stats_balanced`, `StatsProps.stats_elements`, `StatsProps.stats_colour_refuted`, `StatsProps.stats_misplaced_refuted`, `AccessWriteProps.fields_written`, `GetterProps.getters_match_written`, `GetterProps.typed_getters_match_written`, `GetterProps.values_match_written`, `GetterProps.link_href_written`, `GetterProps.model_href_written`, `GetterProps.icon_href_written`, `GetterProps.iconstyle_href_written`, `GetterProps.locality_name_refuted`, `NumberDomProps.fields_written_as_text`, `DateTextProps.date_time_accepts`, `DateTextProps.date_time_round_trip`, `DateTextProps.date_time_parts_defined`, `DateTextProps.date_time_canonical`, `DateTextProps.date_text_seconds`, `DateTextProps.no_date_no_seconds`, `DateTextProps.date_time_trailing_refuted`, `DateTextProps.date_time_february_refuted`, `DateTextProps.date_time_xsd_refuted`, `DateTextProps.date_time_early_refuted`, `DateTextProps.date_time_initial`, `DateTextProps.month_name_read`, `DateTextProps.month_short_read`, `AccessProps.set_then_get`, `AccessProps.clear_then_get`, `AccessProps.other_fields_kept`, `AccessProps.new_element_unset`, `AccessProps.child_then_get`, `AccessProps.unset_default`, `AccessProps.unset_default_refuted`, `AccessProps.absent_is_schema_default`, `AccessProps.open_default_refuted`, `AccessProps.attribute_defaults`, `AccessProps.other_defaults`, `AccessProps.fields_are_simple_children`, `AccessProps.simple_children_have_fields`, `LifeProps.referenced_alive`, `LifeProps.descendants_alive`, `LifeProps.unreferenced_deleted`, `LifeProps.nothing_lost`, `LifeProps.all_deleted`, `LifeProps.cycle_leaks_refuted`, `OldPlaceProps.old_schema_document`, `OldPlaceProps.old_schema_text`, `OldPlaceProps.instance_becomes_placemark`, `OldPlaceProps.instance_data`, `OldPlaceProps.old_data_written`, `OldPlaceProps.instance_has_data`, `OldPlaceProps.stray_field_refuted`, `OldPlaceProps.instance_before_schema_refuted`, `OldPlaceProps.second_schema_refuted`, `BareProps.split_only_styles`, `BareProps.inline_only_styles`, `BareProps.parsed_documents`, `BareProps.bare_sees`, `SplitTotalProps.styles_end`, `StyleSameProps.split_nothing`, `StyleSameProps.inline_nothing`, `TwiceProps.split_written`, `TwiceProps.inline_written`, `ArchiveSaveProps.element_written`, `ArchiveWriteProps.written_kmz`, `FromParseProps.text_or_archive`, `FromParseProps.packed_element_parsed`, `KmzDiskProps.kmz_on_disk`, `KmzFileProps.kml_file_packed`, `KmzFileProps.kml_file_not_packed`, `KmzFileProps.bad_file_packed_refuted`, `NumberDomProps.document_saved`, `SaveProps.saved_is_loaded`, `SaveProps.saved_in_archive`, `SaveProps.element_in_archive`, `UriTextProps.link_resolved`, `UriTextProps.absolute_link`, `UriTextProps.fragment_link`, `UriTextProps.resolved_again`, `UriTextProps.link_in_archive`, `UriTextProps.fetched_url`, `UriTextProps.fetched_literal_refuted`, `UriTextProps.local_style_url`, `UriTextProps.style_id_refuted`, `UriTextProps.style_id_space_refuted`, `UriTextProps.style_of_host_refuted`, `UriTextProps.style_of_query_refuted`, `FilenameProps.names_in_bounds`, `FilenameProps.long_name_refuted`, `FilenameProps.name_there_and_back`, `FilenameProps.name_is_uri`, `FilenameProps.backslash_refuted`, `FilenameProps.drive_refuted`, `FilenameProps.normalize_href_same`, `FilenameProps.uri_forms`, `FilenameProps.windows_uri_forms`, `FilenameProps.long_uri_refuted`, `FilenameProps.huge_uri`, `FilenameProps.wrapped_uri_refuted`, `FilenameProps.wrapped_size`, `FilenameProps.escape_read`, `FilenameProps.network_name`, `NumberDomProps.int_kept`, `NumberDomProps.int_text_stable`, `NumberDomProps.int_value`, `NumberDomProps.int_range_refuted`, `NumberDomProps.numbers_are_stable`, `NumberProps.number_written_again`, `NumberProps.number_text_stable`, `NumberProps.written_is_numeral`, `NumberProps.read_nearest`, `NumberProps.digits_kept`, `NumberProps.zero_kept`, `NumberProps.number_error`, `NumberProps.written_nearest`, `NumberProps.sixteen_digits_refuted`, `NumberProps.double_kept_refuted`, `NumberProps.out_of_range_refuted`, `NumberProps.special_values_refuted`, `NumberProps.no_number_is_zero`, `ArchiveWriteProps.written_is_read`, `DeflateProps.written_rfc1951`, `FromParseProps.archive_parsed`, `KmzDiskProps.kmz_full_disk_refuted`, `DiskProps.read_file_spec`, `DiskProps.write_file_spec`, `DiskProps.write_then_read`, `DiskProps.delete_spec`, `DiskProps.temp_file_spec`, `DiskProps.create_temp_fails`, `DiskProps.drop_temp_spec`, `DiskProps.temp_file_life`, `DiskProps.write_full_disk_refuted`, `DiskProps.read_error_unnoticed_refuted`, `DiskProps.nul_in_name_refuted`, `KmzDiskProps.kmz_not_made`, `KmzDiskProps.directory_packed_refuted`, `LocaleProps.locale_c_blocks`, `LocaleProps.locale_c_no_memory_refuted`, `LocaleProps.locale_c_crossed_refuted`, `LocaleProps.locale_c_frees_others_refuted`, `LocaleProps.to_string_any_locale`, `LocaleProps.region_file_digits`, `LocaleProps.region_files_differ`, `LocaleProps.region_file_locale_refuted`, `LocaleProps.freed_locale_undefined`, `ExpatProps.foreign_root_stops`

```
Axioms:
ClassicalDedekindReals.sig_not_dec : forall P : Prop, {~ ~ P} + {~ P}
ClassicalDedekindReals.sig_forall_dec
  : forall P : nat -> Prop,
    (forall n : nat, {P n} + {~ P n}) ->
    {n : nat | ~ P n} + {forall n : nat, P n}
FunctionalExtensionality.functional_extensionality_dep
  : forall (A : Type) (B : A -> Type) (f g : forall x : A, B x),
    (forall x : A, f x = g x) -> f = g
Classical_Prop.classic : forall P : Prop, P \/ ~ P
```

`GeoProps.distance_great_circle`, `GeoProps.distance_symmetric`, `GeoProps.distance_zero`, `GeoProps.distance_triangle`, `GeoProps.radial_distance`, `GeoProps.azimuth_range`, `GeoProps.distance_zero_degrees`, `GeoProps.radial_round_trip`, `GeoProps.distance3d_correct`, `GeoProps.elevation_correct`, `GeoProps.circle_points_correct`, `GeoProps.radial_longitude_refuted`, `GeoProps.azimuth_self`

```
Axioms:
ClassicalDedekindReals.sig_not_dec : forall P : Prop, {~ ~ P} + {~ P}
ClassicalDedekindReals.sig_forall_dec
  : forall P : nat -> Prop,
    (forall n : nat, {P n} + {~ P n}) ->
    {n : nat | ~ P n} + {forall n : nat, P n}
FunctionalExtensionality.functional_extensionality_dep
  : forall (A : Type) (B : A -> Type) (f g : forall x : A, B x),
    (forall x : A, f x = g x) -> f = g
```

`GeoProps.range_elevation`
