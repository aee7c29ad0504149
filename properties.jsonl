{"id": "C01", "title": "Write-then-read round trip for every KML object", "statement": "For every object of every KML class the library can write, built with regular namespaces and attribute values of the declared types: if obj.etree_element() returns, then cls.class_from_element on that element (same ns / name_spaces, strict or not) returns an object whose attributes are those of obj, except that empty (falsy) sub-objects are gone and heterogeneous lists are grouped by class. If obj has no empty sub-object and its lists are already grouped, the result is obj itself.", "quantifier": "all classes in the registry, all attribute values, all nesting depths and list lengths, all name-space maps with distinct well-formed namespaces, both strict modes", "why_tests_cant": "Hypothesis tests sample shallow objects class by class; the claim is an induction over arbitrarily deep documents and over ~200 registry items.", "anchors": ["fastkml/base.py:_XMLObject.etree_element", "fastkml/base.py:_XMLObject.class_from_element", "fastkml/base.py:_XMLObject._get_kwargs", "fastkml/helpers.py", "fastkml/registry.py:Registry.get"]}
{"id": "C02", "title": "Loading and saving is stable from the second generation on", "statement": "For every XML element that parses to an object and can be written, reading the written form gives a fixed point: writing and reading it again gives the same object and the same XML.", "quantifier": "every XML element tree, every class, strict or not", "why_tests_cant": "The inputs are arbitrary (malformed, reordered, foreign) XML trees; a data loss that only shows on the second save is exactly what sampled one-pass tests miss.", "anchors": ["fastkml/base.py", "fastkml/helpers.py:xml_subelement", "fastkml/helpers.py:xml_subelement_list", "fastkml/helpers.py:xml_subelement_list_kwarg"]}
{"id": "C03", "title": "Strict success implies identical lenient result", "statement": "Whenever parsing with strict=True returns an object, parsing the same element with strict=False returns the same object.", "quantifier": "every element tree, every class, every name-space map", "why_tests_cant": "Needs a proof through every value parser (bool, int, float, enum, date, coordinates) at every depth.", "anchors": ["fastkml/base.py:_XMLObject.class_from_element", "fastkml/helpers.py:_get_boolean_value", "fastkml/helpers.py:_get_enum_value", "fastkml/helpers.py:handle_error"]}
{"id": "C04", "title": "Lenient parsing never raises; strict parsing raises only KMLParseError", "statement": "With strict=False class_from_element returns an object for every element; with strict=True the only exception it raises is KMLParseError.", "quantifier": "every element tree and class", "why_tests_cant": "The set of malformed inputs is unbounded; one unguarded conversion at any depth falsifies it.", "anchors": ["fastkml/helpers.py:handle_error", "fastkml/helpers.py:attribute_int_kwarg", "fastkml/helpers.py:datetime_subelement_list_kwarg", "fastkml/data.py:Schema.__init__", "fastkml/gx.py:Track.__init__"]}
{"id": "C05", "title": "Floating point values survive the text form exactly", "statement": "A float attribute or coordinate written without a precision reads back as the same double, bit for bit (including -0.0, subnormals, infinities and nan).", "quantifier": "all 2^64 doubles", "why_tests_cant": "2^64 values, shortest-digits printing and correctly rounded reading; sampling cannot settle it.", "anchors": ["fastkml/helpers.py:float_subelement", "fastkml/helpers.py:subelement_float_kwarg", "fastkml/geometry.py:coordinates_subelement", "fastkml/geometry.py:subelement_coordinates_kwarg"]}
{"id": "C06", "title": "Rounding to a precision is accurate and does not drift", "statement": "to_string(precision=p) writes every coordinate with an error of at most half of 10^-p, and reading that text and writing it again with the same precision gives the same text.", "quantifier": "all finite doubles and all precisions p >= 0", "why_tests_cant": "Drift depends on ties and on decimal/binary rounding at particular doubles.", "anchors": ["fastkml/geometry.py:coordinates_subelement", "fastkml/helpers.py:coords_subelement_list"]}
{"id": "C07", "title": "Integer, boolean and enumeration values survive the text form", "statement": "Every integer (up to the interpreter's digit limit), boolean and enumeration member written as element text or attribute reads back as the same value, and strict reading of written text never fails.", "quantifier": "all integers, booleans, members of all enumerations", "why_tests_cant": "Unbounded integers; must hold for all enumerations at once.", "anchors": ["fastkml/helpers.py:bool_subelement", "fastkml/helpers.py:subelement_bool_kwarg", "fastkml/helpers.py:int_subelement", "fastkml/helpers.py:subelement_int_kwarg", "fastkml/helpers.py:enum_subelement", "fastkml/helpers.py:subelement_enum_kwarg", "fastkml/enums.py"]}
{"id": "C08", "title": "Coordinate lists survive the text form, whatever the white space", "statement": "A non-empty list of non-empty coordinate tuples whose first tuple has 2 or 3 members is written as text that reads back as the same list; inserting any extra white space around tuples or spaces after commas does not change what is read.", "quantifier": "all lists of tuples of doubles, all white space layouts", "why_tests_cant": "Unbounded lists and layouts.", "anchors": ["fastkml/geometry.py:coordinates_subelement", "fastkml/geometry.py:subelement_coordinates_kwarg"]}
{"id": "C09", "title": "KmlDateTime text round trip", "statement": "KmlDateTime.parse(str(d)) == d with the same resolution, for year, year-month, date and (timezone aware) dateTime values.", "quantifier": "all dates of the proleptic Gregorian calendar (years 1..9999), all resolutions, all aware datetimes", "why_tests_cant": "3.6 million dates times resolutions; year formatting boundary cases.", "anchors": ["fastkml/times.py:KmlDateTime.__str__", "fastkml/times.py:KmlDateTime.parse"]}
{"id": "C10", "title": "KmlDateTime normalisation", "statement": "Constructing a KmlDateTime never keeps information finer than its resolution: year => 1 January, year_month => first of month, date => no time of day; the resolution is never dateTime unless a datetime is stored; constructing again from the stored parts changes nothing.", "quantifier": "all date/datetime values and requested resolutions (including none)", "why_tests_cant": "Holds for all calendar values; an invariant of the constructor.", "anchors": ["fastkml/times.py:KmlDateTime.__init__", "fastkml/times.py:adjust_date_to_resolution"]}
{"id": "C11", "title": "Which date texts are read at which resolution", "statement": "A text of four digits is read as a year, YYYY-MM / YYYYMM as a year-month, YYYY-MM-DD / YYYYMMDD as a date; out of range months and days are rejected with ValueError and never silently wrapped; a day without a month is never accepted as a full date.", "quantifier": "all texts", "why_tests_cant": "Regular expression with optional parts over all strings.", "anchors": ["fastkml/times.py:year_month_day", "fastkml/times.py:KmlDateTime.parse"]}
{"id": "C12", "title": "Verbosity never changes meaning", "statement": "For each verbosity, reading the written element gives an object whose effective attribute values (attribute, or the registered default when absent) are those obtained with normal verbosity; terse never writes an attribute equal to its default; verbose writes every attribute with a default.", "quantifier": "all objects, all verbosities, at every depth", "why_tests_cant": "Quantifies over every combination of attributes and defaults of every class.", "anchors": ["fastkml/helpers.py:get_value", "fastkml/base.py:_XMLObject.etree_element"]}
{"id": "C13", "title": "Terse output can be saved again without loss", "statement": "Reading a terse document and writing it again (normal verbosity) keeps every non-default value of the original.", "quantifier": "all objects", "why_tests_cant": "Two-pass property; interacts with the truthiness of every class.", "anchors": ["fastkml/helpers.py:get_value", "fastkml/views.py:Lod.__bool__", "fastkml/overlays.py:ViewVolume.__bool__"]}
{"id": "C14", "title": "Unknown content is ignored and sibling order does not matter", "statement": "The object read from an element depends only on the attributes it looks up, the text, and, per tag, the sequence of children with that tag: adding, removing or reordering children of other tags (comments, foreign elements), adding and removing unknown XML attributes, and writing the XML attributes in another order never changes the result.", "quantifier": "all elements, all insertions and reorderings at any depth", "why_tests_cant": "Unbounded inputs and edits.", "anchors": ["fastkml/base.py:_XMLObject._get_kwargs", "fastkml/helpers.py"]}
{"id": "C15", "title": "Order of heterogeneous lists", "statement": "Reading keeps the document order of children of the same class in every list; children of different classes are grouped in the registered class order, and this grouping is stable (writing and reading again does not reorder any more). In particular the order of features of different kinds is not preserved.", "quantifier": "all lists of features, styles, geometries, data elements", "why_tests_cant": "Permutation claim over arbitrary lists.", "anchors": ["fastkml/helpers.py:xml_subelement_list_kwarg", "fastkml/containers.py", "fastkml/styles.py", "fastkml/data.py"]}
{"id": "C16", "title": "Documents without a namespace", "statement": "An element whose children carry no namespace is read the same as the one in the KML namespace for every attribute that declares the empty-namespace fallback.", "quantifier": "all classes, all attributes that list the empty namespace id", "why_tests_cant": "Interaction of the fallback loop with every value reader; holds or fails per kind of reader, not per sample.", "anchors": ["fastkml/base.py:_XMLObject._get_kwargs", "fastkml/helpers.py:xml_subelement_list_kwarg"]}
{"id": "C17", "title": "Registration histories", "statement": "After any history of register calls, registry.get(cls) is the concatenation, ancestors first, of the items registered for each class of the MRO in registration order; registering for one class changes the result exactly for that class and its subclasses and only appends at that class's position.", "quantifier": "all histories of register calls, all class hierarchies", "why_tests_cant": "Histories and hierarchies are unbounded.", "anchors": ["fastkml/registry.py:Registry.register", "fastkml/registry.py:Registry.get"]}
{"id": "C18", "title": "Extending a class does not disturb existing attributes", "statement": "Registering an additional attribute under an unused tag leaves the reading and writing of all existing attributes unchanged, and the new attribute itself round-trips; except that attributes registered on the KML root class are never written.", "quantifier": "all extra registrations with unused names, all objects", "why_tests_cant": "Quantifies over user registrations that no test suite contains.", "anchors": ["fastkml/registry.py", "fastkml/base.py", "fastkml/kml.py:KML.etree_element"]}
{"id": "C19", "title": "find_all is complete, sound and in document order", "statement": "find_all(obj, of_type=T, **attrs) yields exactly the objects reachable from obj through public attributes and one level of list membership that are instances of T and have the requested attribute values, in pre-order, without missing or inventing any; find returns the first of them or None.", "quantifier": "all object trees, all queries", "why_tests_cant": "Unbounded trees.", "anchors": ["fastkml/utils.py:find_all", "fastkml/utils.py:find", "fastkml/utils.py:get_all_attrs", "fastkml/utils.py:has_attribute_values"]}
{"id": "C20", "title": "get_style_by_url finds the referenced style", "statement": "Document.get_style_by_url(url) returns a Style or StyleMap whose id is the fragment of url, if one exists anywhere in the document, the first in document order, and None otherwise; a url without fragment matches nothing.", "quantifier": "all documents and urls", "why_tests_cant": "Unbounded documents; the corner case is a style without id.", "anchors": ["fastkml/containers.py:Document.get_style_by_url"]}
{"id": "C21", "title": "Geometry to KML to geometry", "statement": "create_kml_geometry(g).geometry == g for every non-empty point, line, ring, polygon and homogeneous multi-geometry, and for every heterogeneous collection thereof.", "quantifier": "all geometries, nested collections", "why_tests_cant": "Unbounded nesting and sizes.", "anchors": ["fastkml/geometry.py:create_kml_geometry", "fastkml/geometry.py:create_multigeometry", "fastkml/geometry.py:MultiGeometry.geometry"]}
{"id": "C22", "title": "Type of a MultiGeometry", "statement": "MultiGeometry.geometry is MultiPoint, MultiLineString or MultiPolygon exactly when all members have that one type, None when there is no member, otherwise a GeometryCollection; members keep their order.", "quantifier": "all member lists", "why_tests_cant": "All lists, including nested ones.", "anchors": ["fastkml/geometry.py:create_multigeometry"]}
{"id": "C23", "title": "Mutually exclusive constructor arguments", "statement": "Constructors that accept either a geometry or its KML form (Placemark, Point, LineString, Polygon, MultiGeometry, BoundaryIs, Track, MultiTrack) raise when both are given and otherwise store what was given.", "quantifier": "all argument combinations", "why_tests_cant": "A decision table over all truthiness combinations of arguments.", "anchors": ["fastkml/features.py:Placemark.__init__", "fastkml/geometry.py", "fastkml/gx.py"]}
{"id": "C24", "title": "Track items keep time, position and angle together", "statement": "For a gx:Track read from XML, the i-th track item pairs the i-th when, the i-th coord and the i-th angles of the document; items are never shifted against each other.", "quantifier": "all tracks, including malformed entries in lenient mode", "why_tests_cant": "A single skipped entry anywhere in a list of any length shifts all that follow.", "anchors": ["fastkml/gx.py:Track.__init__", "fastkml/helpers.py:datetime_subelement_list_kwarg", "fastkml/helpers.py:coords_subelement_list_kwarg"]}
{"id": "C25", "title": "Track round trip", "statement": "A track whose items all have a time, a position and an angle reads back, after writing, as the same items in the same order.", "quantifier": "all lists of track items", "why_tests_cant": "Unbounded lists; items without angle.", "anchors": ["fastkml/gx.py:Track", "fastkml/helpers.py:datetime_subelement_list", "fastkml/helpers.py:coords_subelement_list"]}
{"id": "C26", "title": "Equality is an equivalence and respects serialisation", "statement": "== between library objects is reflexive (nan aside), symmetric and transitive, and objects that compare equal are written as the same XML.", "quantifier": "all pairs and triples of objects", "why_tests_cant": "Quantifies over pairs of objects of all classes with overridden __eq__.", "anchors": ["fastkml/base.py:_XMLObject.__eq__", "fastkml/geometry.py:Point.__eq__", "fastkml/geometry.py:LineString.__eq__", "fastkml/geometry.py:Polygon.__eq__"]}
{"id": "C27", "title": "repr carries the whole object", "statement": "Evaluating the constructor call printed by repr(obj) yields an object equal to obj.", "quantifier": "all objects built by the constructors", "why_tests_cant": "All attribute values of all classes; the existing tests check one object per class.", "anchors": ["fastkml/base.py:_XMLObject.__repr__", "fastkml/geometry.py:LineString.__repr__", "fastkml/geometry.py:Polygon.__repr__"]}
{"id": "C28", "title": "Appending to containers", "statement": "append adds the feature at the end and changes nothing else; a container never contains itself, so that writing a document always terminates.", "quantifier": "all histories of append calls over any set of containers", "why_tests_cant": "Cycles through several containers arise only in longer histories.", "anchors": ["fastkml/containers.py:_Container.append", "fastkml/kml.py:KML.append"]}
{"id": "C29", "title": "Namespace detection when reading a document", "statement": "KML.parse reads a document the same whichever namespace its root element carries (as long as children use the same one), takes an explicitly given ns in preference, and does not modify its arguments.", "quantifier": "all root tags, namespaces and name_spaces arguments", "why_tests_cant": "All namespace strings and argument combinations.", "anchors": ["fastkml/kml.py:KML.parse", "fastkml/base.py:_XMLObject._get_ns"]}
{"id": "C30", "title": "Writing without prefix", "statement": "A KML document whose objects use ns='' is written so that a reader sees all its elements in the KML namespace; reading it back gives the same document with regular namespaces.", "quantifier": "all documents built with ns=''", "why_tests_cant": "Depends on every element writer honouring the object's namespace at every depth.", "anchors": ["fastkml/kml.py:KML.etree_element", "fastkml/helpers.py:get_ns"]}
{"id": "C31", "title": "Pretty printing is invisible to the reader", "statement": "Changing the white space between elements (prettyprint on or off, indentation) and around the text of an element never changes the object read, except inside the text of elements that hold free text attributes read unstripped.", "quantifier": "all elements, all white space changes", "why_tests_cant": "Unbounded layouts at all depths.", "anchors": ["fastkml/helpers.py", "fastkml/base.py:_XMLObject.to_string"]}
{"id": "C32", "title": "Writer refuses malformed coordinates", "statement": "A geometry whose coordinate tuples do not all have 2 or 3 members is never written silently: KMLWriteError is raised.", "quantifier": "all coordinate lists", "why_tests_cant": "All lists; only the first tuple is obvious.", "anchors": ["fastkml/geometry.py:coordinates_subelement"]}
{"id": "C33", "title": "No data-carrying object is dropped on write", "statement": "An attribute object or list member for which some data attribute is set is written; only objects without any data are omitted.", "quantifier": "all objects of all classes with a truth value", "why_tests_cant": "Depends on the truth value of each class for all attribute combinations.", "anchors": ["fastkml/helpers.py:xml_subelement", "fastkml/helpers.py:xml_subelement_list", "fastkml/styles.py:IconStyle.__bool__", "fastkml/views.py:Lod.__bool__", "fastkml/data.py:Data.__bool__"]}
{"id": "C34", "title": "Everything the KML root writes it can read", "statement": "Each kind of feature that can be appended to a KML object and is written by it is read back by KML.from_string.", "quantifier": "all feature classes, all documents", "why_tests_cant": "Coverage of the registry by the writer, for all feature kinds.", "anchors": ["fastkml/kml.py:KML.etree_element", "fastkml/kml.py:registry.register(KML)", "fastkml/containers.py"]}
{"id": "C35", "title": "Relaxed enumerations", "statement": "Enumeration texts are recognised regardless of case in lenient mode and resolve to a unique member; in strict mode only the exact text is accepted; text of no member is reported, never mapped to another member.", "quantifier": "all texts, all enumerations", "why_tests_cant": "All strings.", "anchors": ["fastkml/enums.py:RelaxedEnum._missing_", "fastkml/helpers.py:_get_enum_value"]}
{"id": "C36", "title": "Boolean texts", "statement": "'1'/'true' read as True and '0'/'false' as False; in lenient mode case is ignored; any other text is read by its numeric value or reported, never silently turned into a wrong boolean.", "quantifier": "all texts, both modes", "why_tests_cant": "All strings, including numerals such as 0.0, 1e-400 and nan.", "anchors": ["fastkml/helpers.py:_get_boolean_value", "fastkml/helpers.py:subelement_bool_kwarg"]}
{"id": "C37", "title": "Text attributes are normalised once and for all", "statement": "Text given to constructors is stored stripped, or as None when blank; constructing an object again from the attributes of an object gives the same object (constructors are idempotent).", "quantifier": "all texts, all classes", "why_tests_cant": "All strings (Unicode white space) and all constructors.", "anchors": ["fastkml/helpers.py:clean_string", "fastkml/features.py:_Feature.__init__"]}
{"id": "C38", "title": "Namespace precedence", "statement": "An explicitly passed ns wins over the class default; user name_spaces win over the built-in ones and built-in ones not overridden stay available; the effective map is unchanged by constructing again from it.", "quantifier": "all namespace arguments", "why_tests_cant": "All maps.", "anchors": ["fastkml/base.py:_XMLObject.__init__", "fastkml/base.py:_XMLObject._get_ns", "fastkml/config.py"]}
{"id": "C39", "title": "Children inherit the namespace of their parent", "statement": "Objects created by constructors on behalf of the caller (coordinates, boundaries, rings, icons) use the namespaces given to the enclosing object, so that the written element is uniform.", "quantifier": "all constructors, all namespaces", "why_tests_cant": "Depends on each constructor forwarding its arguments.", "anchors": ["fastkml/geometry.py:Point.__init__", "fastkml/geometry.py:Polygon.__init__", "fastkml/styles.py:IconStyle.__init__"]}
{"id": "C40", "title": "validate decision table", "statement": "validate raises ValueError unless exactly one of element and file is given; returns None when the XML backend has no schema support, True when valid, and re-raises the schema failure otherwise; parsing with validation raises iff strict and invalid.", "quantifier": "all argument combinations and backend capabilities", "why_tests_cant": "Decision logic with an absent backend that tests on one backend do not exercise.", "anchors": ["fastkml/validator.py:validate", "fastkml/kml.py:lxml_parse_and_validate"]}
{"id": "C41", "title": "Style map access", "statement": "StyleMap.normal / highlight return the style of the first pair with that key, or None; they never return the style of the other key.", "quantifier": "all pair lists", "why_tests_cant": "All lists, including duplicates.", "anchors": ["fastkml/styles.py:StyleMap.normal", "fastkml/styles.py:StyleMap.highlight"]}
{"id": "C42", "title": "Time primitives are exclusive", "statement": "time_stamp, begin and end of a feature reflect the stored time primitive: a feature with a TimeStamp has no begin/end, one with a TimeSpan has no time_stamp.", "quantifier": "all features and time primitives", "why_tests_cant": "All combinations.", "anchors": ["fastkml/mixins.py:TimeMixin"]}
{"id": "C43", "title": "Reading does not invent values", "statement": "An attribute of the read object is absent (None, empty list or empty id) unless the element contains the corresponding child, attribute or text; values are only taken from the element itself, never from siblings or descendants.", "quantifier": "all elements and classes", "why_tests_cant": "All trees.", "anchors": ["fastkml/base.py:_XMLObject._get_kwargs", "fastkml/helpers.py"]}
{"id": "C44", "title": "Icon precedence of IconStyle", "statement": "IconStyle uses the given icon; icon_href is only used to create an icon when no icon is given; otherwise there is no icon.", "quantifier": "all combinations of arguments", "why_tests_cant": "Decision table over truthiness.", "anchors": ["fastkml/styles.py:IconStyle.__init__"]}
{"id": "C45", "title": "Objects returned by the reader are well typed", "statement": "Every attribute of every object in a tree returned by the reader has the type declared for it (text stripped and non-blank, valid doubles, members of the declared enumeration, objects of the registered classes), so that a later write never fails because of an attribute of the wrong type.", "quantifier": "every element tree, every class", "why_tests_cant": "Type soundness of the reader over all inputs.", "anchors": ["fastkml/base.py:_XMLObject.class_from_element", "fastkml/helpers.py"]}
{"id": "C46", "title": "A document that was read can be written", "statement": "If reading an element succeeds then writing the resulting object succeeds.", "quantifier": "every element tree", "why_tests_cant": "Quantifies over all malformed inputs that the reader tolerates.", "anchors": ["fastkml/geometry.py:LineString.geometry", "fastkml/geometry.py:Point.geometry", "fastkml/geometry.py:coordinates_subelement"]}
{"id": "C47", "title": "The first of repeated child elements counts", "statement": "Where a class takes a single value from child elements of some tag, only the first child element with that tag matters: later ones are ignored, whatever they contain and whether or not they could be read.", "quantifier": "all element trees, all classes, strict and lenient", "why_tests_cant": "Quantifies over arbitrary, also malformed, repeated elements at arbitrary positions.", "anchors": ["fastkml/helpers.py:subelement_text_kwarg", "fastkml/helpers.py:xml_subelement_kwarg"]}
{"id": "C48", "title": "What is written conforms to the bundled schema", "statement": "The element tree written for a document has the structure that fastkml/schema/kml22gx.xsd prescribes: declared elements, children in the prescribed order and number, declared attributes, required ones present.", "quantifier": "all documents, all verbosities and precisions", "why_tests_cant": "The order of the registry items, the tags and the member classes must agree with the schema for every combination of attributes.", "anchors": ["fastkml/base.py:_XMLObject.etree_element", "fastkml/schema/kml22gx.xsd", "fastkml/schema/ogckml22.xsd"]}
{"id": "C49", "title": "Written values have the form of their schema types", "statement": "Every value in the element tree written for a document (booleans, integers, numbers, dates, enumerations, angles, colours, identifiers, addresses) is valid for the simple type that fastkml/schema/kml22gx.xsd gives to its element or attribute.", "quantifier": "all documents, all verbosities and precisions", "why_tests_cant": "Quantifies over all numbers and dates; each formatter must agree with the type of every element it is registered for.", "anchors": ["fastkml/helpers.py:bool_subelement", "fastkml/helpers.py:float_subelement", "fastkml/helpers.py:enum_subelement", "fastkml/times.py:KmlDateTime.__str__", "fastkml/schema/ogckml22.xsd"]}
{"id": "C50", "title": "Schema-valid documents are accepted in strict mode", "statement": "A document that is valid against fastkml/schema/kml22gx.xsd is accepted by the strict reader, with the same result as in lenient mode.", "quantifier": "all schema-valid element trees, all name-space arguments with the name spaces of the schema", "why_tests_cant": "Quantifies over all documents of the schema, which has over 100 types; every registered getter must accept every value of the type of its element or attribute.", "anchors": ["fastkml/base.py:class_from_element", "fastkml/helpers.py:subelement_int_kwarg", "fastkml/helpers.py:subelement_enum_kwarg", "fastkml/times.py:KmlDateTime.parse", "fastkml/views.py:Lod", "fastkml/data.py:SimpleField", "fastkml/schema/ogckml22.xsd"]}
{"id": "C51", "title": "The defaults that verbosity relies on are those of the schema", "statement": "To someone who knows the default values the bundled schema declares for elements and attributes, a written document says the value of every attribute of every object, whatever the verbosity: what terse output omits is what the schema's default means, and what verbose output adds for an absent attribute means the same as the schema's default.", "quantifier": "all objects, all attributes with a default in the schema, all verbosities and precisions", "why_tests_cant": "Every registered default must agree with the schema for every class, and every value of every attribute must be written so that it is told apart from the default.", "anchors": ["fastkml/helpers.py:get_value", "fastkml/schema/ogckml22.xsd", "fastkml/styles.py:HotSpot", "fastkml/views.py:Lod"]}
{"id": "C52", "title": "XML text tells the document", "statement": "For every library object that can be written, with any precision and verbosity and any registered prefixes, to_string gives well-formed XML text from which a parser builds the element that was written, and from_string on the text of a regular readable object, strict or not, gives an object with the same data.", "quantifier": "all objects of all classes, all Unicode strings in them, all name space maps, all tables of registered prefixes", "why_tests_cant": "Escaping, prefix choice and name space declarations must be right for every combination of names, attribute values, texts and nesting; tests use a handful of documents with ASCII text.", "anchors": ["fastkml/base.py:_XMLObject.to_string", "fastkml/base.py:_XMLObject.from_string", "fastkml/config.py:register_namespaces", "fastkml/config.py:set_default_namespaces"]}
{"id": "C53", "title": "Files hold the document", "statement": "For every KML document that can be written, KML.write puts UTF-8 text into the file (or into the member doc.kml of an archive) from which KML.parse, strict or not, without being told the name space, reads a document with the same data.", "quantifier": "all KML documents, all Unicode strings in them, all name space maps, both kinds of files", "why_tests_cant": "The bytes depend on every character of every string, and the name space is guessed from the root tag for any map.", "anchors": ["fastkml/kml.py:KML.write", "fastkml/kml.py:KML.parse"]}
{"id": "C54", "title": "User-defined classes", "statement": "Defining a new class on top of any class of the library, with its registrations, changes nothing in how everything else is read and written; objects of the new class, and documents into which it is hooked by a further registration, survive writing and reading.", "quantifier": "all sequences of class definitions and registrations, all documents and objects, strict and lenient", "why_tests_cant": "The documentation shows one class; the claim is about every class definition on top of every earlier one, and about every document read afterwards.", "anchors": ["docs/working_with_kml.rst:94-156", "fastkml/registry.py:Registry.register", "fastkml/base.py:_XMLObject.class_from_element", "fastkml/helpers.py:xml_subelement_list_kwarg"]}
{"id": "C55", "title": "The spelling of documents", "statement": "How a document is spelled does not matter for what is read: characters written as themselves, in CDATA sections or as references, comments, processing instructions, the XML declaration, a byte order mark, line ends, white space and quotes in tags, and the form of empty elements.", "quantifier": "all documents of the grammar of XML 1.0 without document types, all registries and classes, strict and lenient, both XML libraries", "why_tests_cant": "Every position of every document can hold a comment or another spelling of a character; the two XML libraries build different trees, and only a few spellings occur in test files.", "anchors": ["fastkml/base.py:_XMLObject.from_string", "fastkml/kml.py:KML.parse", "fastkml/kml.py:lxml_parse_and_validate", "fastkml/config.py:set_etree_implementation", "fastkml/helpers.py:subelement_text_kwarg"]}
{"id": "C56", "title": "The XML library does not matter for what is written", "statement": "Documents written with lxml, indented or not, are read by either library to the object they were written from, and to the same object as those written with ElementTree, whatever prefixes are registered and whatever numbers lxml gives to the others.", "quantifier": "all typed objects of all classes, all tables of prefixes and ways of numbering them, precisions, verbosities, pretty printing on and off, both libraries as reader, strict and lenient", "why_tests_cant": "Which declaration lxml uses for an element depends on those of all elements around it and on the order of the calls; indentation must leave every text alone. Tests run with one library at a time and compare a few documents.", "anchors": ["fastkml/base.py:_XMLObject.to_string", "fastkml/base.py:_XMLObject.etree_element", "fastkml/kml.py:KML.etree_element", "fastkml/kml.py:KML.write", "fastkml/config.py:set_default_namespaces"]}
{"id": "C57", "title": "Every value of a document is found under the attribute of its name", "statement": "Whatever a schema-valid document says is found in the object read from it, under the attribute whose name corresponds to that of the element or XML attribute (north under north, minLodPixels under min_lod_pixels), with the value the text stands for; nothing but a stated list of elements is dropped.", "quantifier": "all classes that have an element in the schema, all schema-valid documents the strict reader accepts, all elements, attributes and texts in them at every depth", "why_tests_cant": "Round trips do not notice when two names are exchanged in both the reader and the writer, or when an element is ignored in both. Tests read one value for some of the fields; the claim is about every declaration of the schema against every registration.", "anchors": ["fastkml/base.py:_XMLObject._get_kwargs", "fastkml/registry.py:Registry.get", "fastkml/helpers.py", "fastkml/features.py", "fastkml/overlays.py", "fastkml/styles.py", "fastkml/geometry.py", "fastkml/gx.py", "fastkml/kml.py"]}
{"id": "C58", "title": "Objects have lists and dictionaries of their own", "statement": "A list or name_spaces dictionary given to a constructor is not shared with the object: changing it afterwards changes no object, changing a list or the name spaces of an object changes neither what the caller holds nor another object. Objects in memory behave as if lists and dictionaries were values.", "quantifier": "all classes, all histories of constructor calls, in-place changes of lists and dictionaries and assignments to attributes, all arguments", "why_tests_cant": "Sharing shows only when one object is changed after another was built from the same list; tests build an object and look at it once. The claim is about every class and every interleaving.", "anchors": ["fastkml/base.py:_XMLObject.__init__", "fastkml/containers.py:_Container.__init__", "fastkml/features.py:_Feature.__init__", "fastkml/geometry.py:Coordinates.__init__", "fastkml/geometry.py:Polygon.__init__", "fastkml/geometry.py:MultiGeometry.__init__", "fastkml/gx.py:Track.__init__", "fastkml/gx.py:MultiTrack.__init__", "fastkml/data.py:ExtendedData.__init__", "fastkml/kml.py:KML.__init__", "fastkml/model.py:ResourceMap.__init__", "fastkml/styles.py:Style.__init__", "fastkml/styles.py:StyleMap.__init__"]}
{"id": "C59", "title": "Numbers have the value their digits say", "statement": "A number in a document is read with the value its digits say: an integer exactly, a decimal number as the double nearest to it (the one with the even significand if two are equally near, an infinity beyond the largest double), and the text of a number is exactly sign, digits, point and power of ten between white space, or inf, infinity, nan; underscores only between digits. Every other text is refused.", "quantifier": "all texts (every length, every Unicode character), all elements and attributes registered as numbers, strict or not", "why_tests_cant": "There are infinitely many texts; tests read a few numbers with short exact values, where rounding, ties, exponents, overflow, underscores and digits of other scripts never show.", "anchors": ["fastkml/helpers.py:subelement_int_kwarg", "fastkml/helpers.py:attribute_int_kwarg", "fastkml/helpers.py:subelement_float_kwarg", "fastkml/helpers.py:attribute_float_kwarg"]}
{"id": "C60", "title": "Whatever lenient reading forgives it reports", "statement": "Reading logs (lenient) or raises (strict) a message for everything in the document it cannot use or takes only in a relaxed spelling, naming the element, the node and the kind of value expected: if lenient reading reports nothing, strict reading gives the same object; if it reports something, strict reading raises KMLParseError with the first of these messages; every message is about a text that is indeed none of what its registration asks for; every such text the reader comes to has its message. Logging changes no result.", "quantifier": "all registries and classes, all element trees, all namespaces, strict or not", "why_tests_cant": "Tests look at the message of one broken value in a document. That nothing is lost silently is a statement about every value of every document, and about the absence of a message.", "anchors": ["fastkml/helpers.py:handle_error", "fastkml/geometry.py:handle_invalid_geometry_error", "fastkml/enums.py:RelaxedEnum._missing_", "fastkml/helpers.py", "fastkml/base.py:_XMLObject._get_kwargs", "fastkml/base.py:_XMLObject.class_from_element", "fastkml/gx.py"]}
{"id": "C61", "title": "Saving after an edit changes only the edited part", "statement": "If an attribute of an object anywhere in a document is given another value, the document written afterwards is the one written before with the element of that object replaced in its place, and that element differs from the old one only in the child elements, XML attributes or text written for that attribute; names, values and order of everything else stay. A member added to a list adds its element and changes nothing else.", "quantifier": "all documents and objects in them at any depth, all attributes, all old and new values that can be written, all precisions and verbosities; for a single attribute also all registries", "why_tests_cant": "Tests edit one attribute of one object and compare one value. That nothing else moves, vanishes or changes is a statement about every other element of every document.", "anchors": ["fastkml/base.py:_XMLObject.etree_element", "fastkml/registry.py:Registry.get", "fastkml/helpers.py", "fastkml/kml.py:KML.etree_element", "fastkml/kml.py:KML.append", "fastkml/containers.py:_Container.append"]}
{"id": "C62", "title": "Verbose documents spell out the schema's defaults, terse ones leave them out", "statement": "For every attribute the bundled schema declares a default for, a verbose document has exactly one text, which means the value of the attribute or, where that is None, the default of the schema; a terse document has no text for an attribute whose value is what that default means.", "quantifier": "all objects of all classes, all attributes with a default in the schema, all values and precisions", "why_tests_cant": "Each of some 150 registrations must carry a default, and every value that means the default (1, 1.0, other spellings of a number) must count as the default.", "anchors": ["fastkml/helpers.py:get_value", "fastkml/schema/ogckml22.xsd", "fastkml/overlays.py:LatLonBox", "fastkml/views.py:LookAt", "fastkml/links.py"]}
{"id": "C63", "title": "Damage to one element costs at most what is read from it", "statement": "If two documents differ in one element only - its text, XML attributes and children may be anything - and both are read, the objects differ at most in the one attribute of each object on the way to that element whose registration looks for its tag; every sibling, every other attribute and every other member of a list is read as before. If only one XML attribute differs, only the attribute of the object that is read from it does. If a time, position or angle of a track is damaged, the items before it are read as before.", "quantifier": "all pairs of element trees that differ in one element or one XML attribute at any depth, all classes, name spaces, strict and lenient reading", "why_tests_cant": "The element may be damaged in arbitrary ways at arbitrary depth; a reader that loses a sibling, a later member of a list or another attribute after one bad element shows it only for particular combinations.", "anchors": ["fastkml/base.py:_XMLObject._get_kwargs", "fastkml/base.py:_XMLObject.class_from_element", "fastkml/helpers.py:xml_subelement_list_kwarg", "fastkml/helpers.py:handle_error"]}
{"id": "C64", "title": "What is read is shared with nobody", "statement": "Reading a document changes nothing that exists. An object that was read shares no list, dictionary or object that can be changed with anything that existed before it, nor with anything read or made later, be it from the same document: a program that does not have the object cannot change what it looks like.", "quantifier": "all histories of reading, constructor calls, in-place changes of lists and dictionaries and assignments to attributes before and after; all element trees, classes, name spaces, strict and lenient reading", "why_tests_cant": "A default list or a parsed child that is kept and handed out twice shows only when one of two objects is changed and the other looked at; tests read a document once and look at it.", "anchors": ["fastkml/base.py:_XMLObject.class_from_element", "fastkml/base.py:_XMLObject._get_kwargs", "fastkml/base.py:_XMLObject.__init__", "fastkml/helpers.py:xml_subelement_kwarg", "fastkml/helpers.py:xml_subelement_list_kwarg"]}
{"id": "C65", "title": "What is saved alike is alike", "statement": "Two objects that are saved as the same text - with ElementTree or lxml, with whatever registered prefixes, indented or not - are of the same class and have the data of one and the same object; if nothing in them is empty or unordered (settled) they are identical.", "quantifier": "all pairs of well-typed objects of all classes in regular name spaces, all texts", "why_tests_cant": "A statement about pairs of objects: a writer that drops or merges something makes two different objects look alike, which no test of single objects notices.", "anchors": ["fastkml/base.py:_XMLObject.to_string", "fastkml/base.py:_XMLObject.etree_element", "fastkml/base.py:_XMLObject.from_string", "fastkml/helpers.py"]}
{"id": "C66", "title": "Only documents are read, and only as what they say", "statement": "A text or file gives objects exactly if it is a document of XML 1.0 (without document type declaration) whose names can be resolved as Namespaces in XML 1.0 says; what the reader gets to see is then the tree that this document stands for. No text can be taken for two different documents. Everything else is refused as a whole, before any object is made.", "quantifier": "all texts and all byte sequences, both XML libraries, all classes, registries and name spaces, strict and lenient reading", "why_tests_cant": "Tests try a few malformed texts; that no malformed text whatever slips through, and that no well-formed one is refused, is a statement about every sequence of characters.", "anchors": ["fastkml/base.py:_XMLObject.from_string", "fastkml/kml.py:KML.parse", "fastkml/config.py"]}
{"id": "C67", "title": "An element means the same wherever it stands", "statement": "Every object inside what is read from a document, at any depth, stands in an element of that document which, cut out and read by itself in the same name spaces, gives the same object. Pasting an element that by itself is read as an object among the children of another element adds this very object to the list of members and changes no other attribute.", "quantifier": "all registries (cutting) and the registry of the library (pasting); all elements, classes, name spaces, places of insertion, strict and lenient reading", "why_tests_cant": "Tests read fixed documents; that no class lets what surrounds an element influence its meaning is a statement about all surroundings and all positions.", "anchors": ["fastkml/base.py:_XMLObject._get_kwargs", "fastkml/base.py:_XMLObject.class_from_element", "fastkml/helpers.py:xml_subelement_kwarg", "fastkml/helpers.py:xml_subelement_list_kwarg"]}
{"id": "C68", "title": "Documents read one after the other do not influence each other", "statement": "A program that reads any number of files and texts, keeping the name spaces it passes to every call in one dictionary, gets from each call what this call alone would give it. (False: KML.parse writes the name space of the file into the dictionary, so that a later from_string looks for its elements there. True if the dictionary is empty, for every KML.parse of a document in a name space, and as long as only documents in the name space of the dictionary or in none were parsed before.)", "quantifier": "all sequences of calls of KML.parse and from_string with all documents, classes, registries, dictionaries, explicit or detected name spaces, strict and lenient reading", "why_tests_cant": "Tests read each document with fresh settings; influence shows only in sequences, of which there are infinitely many.", "anchors": ["fastkml/kml.py:KML.parse", "fastkml/base.py:_XMLObject.from_string"]}
{"id": "C69", "title": "What is read is no larger than the document", "statement": "The object read from an element holds no more objects than the element holds elements, for every class and name space no more objects of it than there are elements with its name, and objects lie no deeper inside each other than elements do: no element is read twice, and a small document cannot become a large object.", "quantifier": "all element trees, classes, name spaces of the form {uri}, strict and lenient reading; the bound on the depth for all registries", "why_tests_cant": "The bound is about all documents at once; a registry in which two registrations or two classes look for the same element doubles the work at every level, which shows only on deeply nested documents of the right kind.", "anchors": ["fastkml/base.py:_XMLObject._get_kwargs", "fastkml/base.py:_XMLObject.class_from_element", "fastkml/helpers.py:xml_subelement_kwarg", "fastkml/helpers.py:xml_subelement_list_kwarg", "fastkml/registry.py:Registry.get"]}
{"id": "C70", "title": "A precision concerns the positions only", "statement": "Written in full and with a precision, an object gives the same elements in the same order with the same XML attributes and texts, except that every number in a coordinates, coord or angles element is the number written in full rendered with the decimals asked for; no number is dropped, added or moved, and no other number (of a view, a style, a bounding box or a region) is rounded. Whether an object that was read can be written at all, and what is raised otherwise, does not depend on the precision.", "quantifier": "all typed objects, precisions and verbosities for which both writings succeed; the outcome for all objects read from element trees", "why_tests_cant": "The precision is handed to every function that writes an attribute of every class; a test with a precision looks at one coordinate text, not at what happens to every other number in every other kind of object.", "anchors": ["fastkml/base.py:_XMLObject.etree_element", "fastkml/geometry.py:coordinates_subelement", "fastkml/helpers.py:coords_subelement_list", "fastkml/helpers.py:float_subelement", "fastkml/helpers.py:float_attribute"]}
{"id": "C71", "title": "Every object is written once", "statement": "The elements of a written document that are not named like a text, a number, a date or positions are its objects: every object with the truth value true, inside true objects only, is written exactly once, nothing else is written under the name of a class, no object is written twice, and none is missing if all have the truth value true. Elements are nested no deeper than the objects, but for the text elements of the innermost.", "quantifier": "all typed objects with name spaces of the form {uri} or none, all precisions and verbosities", "why_tests_cant": "An attribute registered twice, or registered for a class and for its parent, is written twice; the reader takes the first of the two, so a test that writes and reads does not see it. Counting needs all classes and all nestings at once.", "anchors": ["fastkml/base.py:_XMLObject.etree_element", "fastkml/helpers.py:xml_subelement", "fastkml/helpers.py:xml_subelement_list", "fastkml/kml.py:KML.etree_element", "fastkml/registry.py:Registry.get"]}
{"id": "C72", "title": "An object is written the same wherever it stands", "statement": "Every object inside a written object (no object on the way having the truth value false) stands there as the element it is written as alone; every element of the document is a text, number, date or positions without elements inside, or what some object inside is written as alone; one object in two documents is written as the same element in both; and if it can not be written, nothing it stands in can.", "quantifier": "all typed objects, all objects inside them at any depth, all precisions and verbosities", "why_tests_cant": "The writer hands precision, verbosity and name spaces down through every class and every depth; a test of a nested object sees one path. The statement is about all paths, and says that nothing of the surroundings comes in.", "anchors": ["fastkml/base.py:_XMLObject.etree_element", "fastkml/helpers.py:xml_subelement", "fastkml/helpers.py:xml_subelement_list", "fastkml/kml.py:KML.etree_element"]}
{"id": "C73", "title": "The order in which attributes are set does not matter", "statement": "Two objects that differ only in the order in which the attributes (and the name spaces) of the objects in them were set are written as the same element or fail with the same exception, and have the same truth value and the same geometry. A constructor called with its keyword arguments in another order raises the same exception or makes an object that differs in that order only.", "quantifier": "all objects (typed or not), all nestings, all reorderings at all depths, all precisions and verbosities; all classes and all keyword arguments without repeated names", "why_tests_cant": "The attributes of n names have n! orders at each object of a document; attributes deleted and set again, and unknown keyword arguments, change it. Code that went through __dict__ would be noticed only by a test that happens to set the attributes in another order.", "anchors": ["fastkml/base.py:_XMLObject.__init__", "fastkml/base.py:_XMLObject.etree_element", "fastkml/helpers.py:get_value", "fastkml/registry.py:Registry.get"]}
{"id": "C74", "title": "Documents put together", "statement": "If the list of an object (the features of a folder, the members of a multi geometry, ...) is two lists put together, its element is that of the object with the first list, with the elements of the second list's members behind those of the first and everything else as it was. If the children of an element are those of two elements put together, each list of the object read from it holds, of every class, the objects read from the first element followed by those read from the second; none is lost and none added.", "quantifier": "all classes and all list attributes, all lists and elements that can be written or read, all precisions and verbosities, strict and lenient", "why_tests_cant": "Merging files is tested with a file or two. That no member influences how another is written or read, at any position and for any class, is a statement about all pairs of lists.", "anchors": ["fastkml/helpers.py:xml_subelement_list", "fastkml/helpers.py:xml_subelement_list_kwarg", "fastkml/base.py:_XMLObject.etree_element", "fastkml/base.py:_XMLObject._get_kwargs"]}
{"id": "C75", "title": "Verbosity only adds", "statement": "Whatever can be written with normal verbosity can be written tersely and verbosely, and the verbose document exists only if the normal one does. The terse document is the normal one, and the normal one the verbose one, with XML attributes, texts and elements that consist of a text left out at any depth: no other element is left out, and nothing that stays is changed or moved.", "quantifier": "all typed objects of the library, all precisions", "why_tests_cant": "Every class has its own defaults and objects nest without bound; a verbosity that drops an object, moves a child or fails to write a default shows only for particular combinations.", "anchors": ["fastkml/helpers.py:get_value", "fastkml/base.py:_XMLObject.etree_element"]}
{"id": "C76", "title": "Searches can be narrowed and divided", "statement": "find_all with further conditions, or with some of the types asked for (or a type where none was asked for), gives those of the objects found before that meet them, in the same order; the order of the conditions does not matter; what is found in an object is the object itself, if it matches, followed by what is found in each of its parts.", "quantifier": "all objects, types, attribute functions and comparisons that do not raise", "why_tests_cant": "Queries and trees are unbounded; a search that forgets a condition in one branch, or stops below an object that does not match, shows only in some trees.", "anchors": ["fastkml/utils.py:find_all", "fastkml/utils.py:has_attribute_values", "fastkml/utils.py:get_all_attrs"]}
{"id": "C77", "title": "Saving repairs a document", "statement": "What lenient reading makes of any element, however faulty, is written so that strict reading accepts it, strict and lenient reading agree on it and neither reports anything, with every precision and verbosity; a settled object comes back as it was read.", "quantifier": "all elements, classes, precisions and verbosities, for objects read whose coordinates are complete and whose dates, tracks and name spaces can be written", "why_tests_cant": "The faults of a document are unbounded; that none of them finds its way into the saved document needs an argument about every value the lenient reader can let through.", "anchors": ["fastkml/base.py:_XMLObject.from_string", "fastkml/helpers.py:handle_error", "fastkml/base.py:_XMLObject.etree_element"]}
{"id": "C78", "title": "Adding to a document keeps its references", "statement": "Features added at the end of a document's features never change what a style reference that resolves resolves to, whatever styles they bring along. Objects added at the end of any list do not change what an id refers to if a style in that list already has it. A reference that did not resolve resolves to what the added object alone gives. In general, what a search by type found is still found in the same order after a list grows, and what the new objects hold stands in one piece.", "quantifier": "all documents with documented types, all added objects, all urls; for the general search all objects that are not themselves asked for, all types and conditions", "why_tests_cant": "The depth and number of the styles inside features and of the added objects are unbounded; that none of them can come before an existing result depends on the order of all attributes of a document.", "anchors": ["fastkml/containers.py:Document.get_style_by_url", "fastkml/containers.py:_Container.append", "fastkml/utils.py:find_all", "fastkml/utils.py:get_all_attrs"]}
{"id": "C79", "title": "Saving never redirects a reference", "statement": "After saving and loading a document, a style reference resolves only to a style that was in the document before, with the same data and (but for white space around it) the same id; with another verbosity, with the same data up to defaults. Every object that any search finds afterwards has the data of an object of the same class that was there. If no two different styles of the document share an id, a reference that resolves before and after resolves to the same data. A document in which nothing is empty or out of order keeps all its references.", "quantifier": "all objects with documented types that can be written and read, all urls with a fragment that is not blank, strict and lenient reading, all verbosities", "why_tests_cant": "Writing drops empty objects and groups lists by class at every depth; that no combination of this makes a reference resolve to something else needs an argument about all documents.", "anchors": ["fastkml/containers.py:Document.get_style_by_url", "fastkml/base.py:_XMLObject.etree_element", "fastkml/base.py:_XMLObject.from_string", "fastkml/helpers.py:xml_subelement_list"]}
