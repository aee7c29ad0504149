{
 "C01": [
  "proved",
  "for all objects with declared types, readable dates and aligned tracks; same data, and identity for settled objects"
 ],
 "C02": [
  "partial",
  "refuted as stated (an object holding only an empty object disappears one generation later); proved: convergence after at most size-many generations, and fixed point at once without empty sub-objects"
 ],
 "C05": [
  "proved",
  "exact round trip for all 2^64 bit patterns (NaN payloads identified)"
 ],
 "C06": [
  "proved",
  "accuracy, no drift for single numbers and for coordinate lists"
 ],
 "C08": [
  "proved",
  "texts up to white space"
 ],
 "C09": [
  "partial",
  "refuted for years before 1000 (strftime %Y); proved for everything else with whole-minute offsets"
 ],
 "C10": [
  "proved",
  ""
 ],
 "C11": [
  "proved",
  "both directions of the regular expression; arrow is an oracle for other texts"
 ],
 "C45": [
  "proved",
  ""
 ],
 "C07": [
  "proved",
  "item level for every item kind of the library, all integers below the digit limit"
 ],
 "C35": [
  "proved",
  "all texts, all enumerations of the library; lower() is modelled for ASCII and U+212A"
 ],
 "C36": [
  "partial",
  "complete decision table proved; 'never a wrong boolean' is refuted in lenient mode by nan and 1e-400"
 ],
 "C37": [
  "partial",
  "proved for all text attributes except ids (kept unstripped: refuted); idempotence proved for all classes, refuted for a Schema with blank id"
 ],
 "C38": [
  "proved",
  ""
 ],
 "C03": [
  "proved",
  "for every registry and every element, through class_from_element, from_string and KML.parse"
 ],
 "C04": [
  "partial",
  "refuted as stated (integer attributes, Schema without id, empty when, blank gx:coord, more times than positions raise other exceptions); proved: strict raises KMLParseError or agrees with lenient; exact condition for lenient success; no exception without Schema, Track and integer attributes; the only exceptions are KMLParseError (strict only), ValueError (integer attributes), KMLSchemaError (Schema) and TypeError (Track), for every element"
 ],
 "C14": [
  "proved",
  "for every registry: swaps of children with different tags, swaps of XML attributes with different names, and unknown children and attributes, at any depth; exact dependency relation"
 ],
 "C16": [
  "partial",
  "refuted for lists, where the fallback is never reached; proved for all other attributes that declare both name spaces, recursively"
 ],
 "C29": [
  "partial",
  "refuted: the dictionary passed as name_spaces is modified; proved: the URI of the root name space does not matter, an explicit ns wins"
 ],
 "C31": [
  "partial",
  "refuted for the text of when in tracks (not stripped); proved for everything else at any depth"
 ],
 "C43": [
  "partial",
  "refuted for the angles of a track (0 0 0 is invented); proved for all other attributes of all classes"
 ],
 "C15": [
  "proved",
  "order within each class, for every list attribute and every document; order across classes is by class in the order of the registry (the naive claim is refuted)"
 ],
 "C24": [
  "partial",
  "refuted in lenient mode: an unreadable entry shifts the pairing; proved when every entry is readable, and in strict mode"
 ],
 "C25": [
  "proved",
  "all lists of items with time, position and angle whose times survive the text form (C09); refuted for items without an angle"
 ],
 "C12": [
  "proved",
  "all objects and verbosities, effective values compared with ==; terse omits, verbose shows (unless the text is empty), same verbosity at every depth"
 ],
 "C13": [
  "partial",
  "refuted (Lod with the default minimum loses its maximum at the second save); proved when nothing in the re-read object counts as empty"
 ],
 "C32": [
  "partial",
  "refuted as stated: only the first tuple is checked, and inside a placemark a false geometry is dropped first; proved: coordinates whose first tuple has a wrong length are refused with KMLWriteError and no object they belong to is ever written"
 ],
 "C33": [
  "partial",
  "refuted for IconStyle, Lod, NetworkLink, mixed-dimension lines; proved: every true part at any depth has its own element, 38 classes (listed) are true whenever any data attribute is set, and geometries with uniform coordinates are true"
 ],
 "C34": [
  "partial",
  "refuted for ScreenOverlay, the only such class (listed by computation); proved for all features of the classes the root reads"
 ],
 "C46": [
  "partial",
  "refuted by \"1 2 3\" as line coordinates and by NaN altitudes; proved for everything read whose coordinate tuples have 2 or 3 non-NaN members, and for typed hand-built objects; writing raises nothing but KMLWriteError, TypeError, DimensionError or ValueError, each only for its cause (C46_exceptions, C46_read_exceptions)"
 ],
 "C17": [
  "proved",
  "for every starting registry and every sequence of register calls; the result depends only on the relative order of the calls naming classes of the MRO"
 ],
 "C18": [
  "partial",
  "refuted for overlay classes (their constructors accept no **kwargs, so registering on them or on a class above them makes reading raise TypeError); proved for every other registration whose attribute, element and getter names are unused, on top of any number of earlier registrations and class definitions"
 ],
 "C21": [
  "partial",
  "proved for all geometries incl. nested mixed collections, in memory and through a file; collections of one kind become multi-geometries (refuted) and collections are regrouped by class in a file (refuted)"
 ],
 "C22": [
  "proved",
  ""
 ],
 "C23": [
  "partial",
  "both given is refused, also by Track; what is given is stored, the times, positions and angles of a Track pairwise; refuted for Polygon inner boundaries, falsy kml_geometry of Placemark and Track without coords"
 ],
 "C39": [
  "partial",
  "refuted for coordinates and boundaries; rings of boundaries, members of multi-geometries, geometry of placemarks and icons inherit; uniform with the default name spaces"
 ],
 "C44": [
  "partial",
  "refuted for a given icon without href; other rows of the table proved"
 ],
 "C19": [
  "proved",
  "find_all/find on every object and query, with getattr and the comparisons as parameters; order stated with paths. Termination for tree-shaped objects (object graphs with cycles are not values of the model; see C28)."
 ],
 "C20": [
  "partial",
  "First Style/StyleMap with the fragment as id, None otherwise; the clause about urls without fragment is refuted (a style with id \"\" matches) and proved for documents whose styles have ids. A ValueError of urlparse for malformed hosts is the parameter bad_host."
 ],
 "C41": [
  "proved",
  "All style maps with documented types."
 ],
 "C42": [
  "proved",
  "Exclusivity for every object; exact values for features with documented types."
 ],
 "C28": [
  "partial",
  "refuted as stated: a cycle through two containers, or the KML root inside itself, is accepted and writing never ends; proved: appended at the end, nothing else changes, a container is never its own direct member, and writing ends exactly for histories that put nothing below itself"
 ],
 "C40": [
  "partial",
  "the clause \"None without schema support\" is refuted (a schema compiled under another XML library stays cached); every other clause proved with the XML library as parameters"
 ],
 "C26": [
  "partial",
  "Reflexivity proved for every typed object without NaN whose geometries can be computed and equal themselves. Symmetry and transitivity proved for objects without geometry, and for all others relative to pygeoif's == (an oracle), if no geometry was given extra keyword arguments. Equal objects that spell equal numbers and moments alike, and whose equal shapes agree in what == does not look at (how the shape is written down, the altitude mode of lines and polygons), are written as the same XML. Refuted: symmetry with extra keyword arguments, transitivity with pygeoif's approximate comparison, same XML for lines and polygons (altitude mode ignored), line versus ring, 1 versus 1.0, -0.0, time zones."
 ],
 "C27": [
  "partial",
  "Proved for every typed object whose parts were returned by constructors: the printed call evaluates to an object equal to it in both directions (lines, rings and polygons are rebuilt from geometry=...), and to exactly the same object if it contains no line, ring or polygon. Numbers must have literals (no nan or inf), extra keyword arguments must be neither None nor enumeration members, and the five private base classes are excluded. Refuted: nan, enumeration and None among extra arguments, a Schema with blank id, exactness for lines (mixed dimensions lose the coordinates)."
 ],
 "C30": [
  "partial",
  "refuted for documents with gx content: gx altitude modes are written in the gx name space, and a gx:Track with ns='' comes back without points; proved when the gx and atom objects have their own name space (reading back) and when there are no gx altitude modes (all elements in KML); the XML rule for default name spaces (as_read) is part of the trusted base"
 ],
 "C47": [
  "proved",
  ""
 ],
 "C48": [
  "partial",
  "refuted for documents with both features and schemata (written in the wrong order), several features below kml, sub-styles or extended data in another order than the schema's, Data without value, atom:link without href, SimpleData without name, icons of icon styles with refresh settings (always so in verbose mode), track items without time; proved for all other well-typed documents in regular name spaces; only the structure, not the lexical form of the values, is covered; the reading of the XSD files (tools/gen_schema.py, Schema.v) is part of the trusted base"
 ],
 "C49": [
  "partial",
  "Proved for all plain values that the texts of booleans, integers, numbers, dates and enumerations have the form of their schema types, and for all values in range (fitting) that the texts are in the ranges of the angle types and have the patterns of colours, identifiers, e-mail addresses, media types and language tags. Refuted for infinite floats and NaN (written inf and nan), integers beyond 32 bits, years before 1000 without a day, offsets with seconds or beyond 14 hours, angles out of range, colours, identifiers and e-mail addresses without their patterns (nothing checks them). Uniqueness of identifiers is not covered; the lexical forms (Lexical.v, Facets.v) and the reading of the XSD files are part of the trusted base."
 ],
 "C50": [
  "partial",
  "refuted where the library asks for more than the schema: fractional numbers in Lod, other types of SimpleField than those of OGC KML, Schema without id, coordinates that are no numbers, more times than positions in gx:Track; a year of six digits is read as a year and a month; proved for documents that meet these demands, in whatever order the elements come; dates with a zone, years of more than four digits, times in Z or with other fractions than of six digits only as far as arrow accepts them"
 ],
 "C51": [
  "partial",
  "Proved for every attribute with a default in the schema, every object, verbosity and precision, except three attributes where the library's default is not that of the schema: min_lod_pixels of Lod (256 against 0.0) and x, y of HotSpot (0.5 against 1.0); refuted for these (terse output changes the meaning of the document for other readers). Also shown: every scalar attribute with a registered default has a default in the schema, except viewFormat (refuted). Texts of xs:boolean, numbers, enumerations and plain texts are given their meaning by the relation means."
 ],
 "C52": [
  "partial",
  "Proved for every typed object whose strings and name spaces consist of XML characters without carriage returns (xml_object), any precision, verbosity and registered prefixes: the text is parsed to exactly the element written; regular readable objects come back with the same data (identical when settled), also those with ns=''. Refuted otherwise: a carriage return comes back as line feed, a control character makes the text unparsable. The text is that of the standard library's ElementTree (CPython 3.11); either library may read it, the parser is a model of XML 1.0 with Namespaces; pretty printing (lxml only) is covered by C31. Further registered prefixes keep this true (C52_prefixes_registered)."
 ],
 "C53": [
  "partial",
  "Proved for every KML document as in C52, with or without prefix: writing succeeds, the bytes (of the file or of the member doc.kml) are read by KML.parse to the same data. Refuted: KML.parse does not open the archives that KML.write makes, and a surrogate in a string makes write raise UnicodeEncodeError. UTF-8 is modelled in full; zip archives are modelled as lists of members."
 ],
 "C54": [
  "partial",
  "Reading and writing of everything else proved unchanged for every new class, on top of any number of registrations and class definitions; round trip proved for all typed objects of all such libraries. Refuted: an object of a class derived from Placemark inside a folder is written but not read again (the reader looks for the registered tags only); a text registered for ns_ids (\"kml\", \"\") in a class whose name space is gx is written in gx and never found."
 ],
 "C55": [
  "partial",
  "Proved for every document of the grammar (syntax trees that keep all choices of the author, XmlMarkup.v): it is read as its tree says, and documents that differ in spelling only are read alike, as texts and as files in UTF-8, with ElementTree without exception and with lxml if comments do not stand between the characters of an element. Refuted for lxml: a comment inside coordinates silently drops the points behind it (Element.text ends there), and from_string refuses texts that declare their encoding. Document types are not modelled; repair of malformed files by lxml (recover=True) neither."
 ],
 "C56": [
  "partial",
  "Proved for every typed object whose strings consist of XML characters (carriage returns included) and whose name spaces need no escape (lxml_object), any registered prefixes and numbering, indented or not: lxml's text is well-formed and both libraries build from it the element written but for white space; regular readable objects come back with the same data, as text and as file, and the result is that of ElementTree's text, for every class and mode. Condition for documents in a name space: no object inside has ns=''. Refuted without it (lxml's default name space adopts such an object, ElementTree's text loses it), for control characters (lxml raises ValueError when the element gets them) and for a name space with an ampersand (libxml2 does not escape it)."
 ],
 "C57": [
  "partial",
  "proved for all elements of the schema but a stated list that the library has no place for or leaves out (each kind refuted by a witness: ScreenOverlay below kml, tracks in MultiGeometry, ListStyle in Style, Style beside styleUrl in Pair, Tour, Update, extrude of Track, ids of boxes, further names of an author); the parts of the items of a track are dealt with in C24. Conversely an attribute is only set by something of its name (C57_named_sources), and what is written for a settled object is found in the object under these names"
 ],
 "C58": [
  "partial",
  "refuted for Coordinates(coords=l), which keeps the list it is given (geometry.py:269); proved for every other list and dictionary parameter and all histories"
 ],
 "C59": [
  "proved",
  "About the models of int() and float() (PyInt.v, PyFloat.v) and of the four functions of helpers.py that call them."
 ],
 "C60": [
  "partial",
  "refuted for booleans: other spellings (TRUE, 2) are taken silently; proved for everything else, for every registry, in both directions (what is reported is justified, what is dropped is reported). Entry points from_string and KML.parse after XML parsing"
 ],
 "C61": [
  "proved",
  "On element trees (before XML text, see C52 for the text). The edit is one that leaves the object in its place: an object that becomes false (an empty geometry) is no longer written, which is an edit of the attribute that holds it."
 ],
 "C62": [
  "partial",
  "Refuted for 23 attributes without a default in the library (among them the sides of LatLonBox and LatLonAltBox and range of LookAt; the list is shown to be exact) and for the three of C51 with another default; proved for all others."
 ],
 "C63": [
  "proved",
  "On element trees. Both documents are assumed to be read: when strict or lenient reading raises instead is C04. The times, positions and angles of a track make up one attribute, its items: those before the damaged entry are kept (C63_tracks), the later ones can all change (C24)."
 ],
 "C64": [
  "proved",
  "The memory of C58 with the reader on it. The reader on memory is shown to give the object, or raise the exception, of the reader on trees."
 ],
 "C65": [
  "proved",
  "For objects as in C52 (ElementTree) and C56 (lxml). The settled condition is needed: an empty time stamp is not written (C65_example)."
 ],
 "C66": [
  "proved",
  "The converse of C55. Grammar in XmlMarkup.v, whose terms are those of XML 1.0 (XmlTerms.v, C55_terms); name spaces as a relation in XmlNames.v, which does not use the parser. Outside the model: document type declarations, encodings other than UTF-8, and lxml's repair of files that are not well-formed (KML.parse passes recover=True)."
 ],
 "C67": [
  "proved",
  "On element trees; with C66 the element cut out is that of a text. Cutting holds for every registry, pasting for lists of members; a single sub-object is read from the first element with its tag. Whether the object pasted has a truth value is an assumption, since some constructors drop empty members (C33)."
 ],
 "C68": [
  "partial",
  "Refuted: after KML.parse of a file in another name space, with a non-empty dictionary, from_string with the same dictionary finds nothing in a document that alone is read completely. Proved otherwise, with what the dictionary holds afterwards. Entry points after XML parsing (C66)."
 ],
 "C69": [
  "proved",
  "On element trees. The counts are for the library's registry, in which each tag is looked for by one registration of a class (C63_one_registration); the bound on the depth holds for every registry."
 ],
 "C70": [
  "proved",
  "About the element trees; how close a number with p decimals is to the number in full is C06. The outcome is shown to be the same for objects that were read; an object made by hand can hold an int too large for a float, which has a text but no text with a precision (C70_outcome_example)."
 ],
 "C71": [
  "proved",
  "On element trees. That objects with the truth value false are not written at all is C33; elements are told apart by their local names, and no class has the name of a text (class_tags in PropOnce.v)."
 ],
 "C72": [
  "proved",
  "On element trees. The same for the reader is C67. That the elements standing for objects are as many as the objects is C71."
 ],
 "C73": [
  "proved",
  "On element trees. The classes of C45 (typed) fix an order of the attributes; this theorem shows that nothing written depends on it. Equality of dictionaries is that of C26; repr shows the unknown keyword arguments in their order and is not spoken of here."
 ],
 "C74": [
  "proved",
  "On element trees. Reading sorts the members by class (C15), so the statement about reading is one for each class. Attributes that hold one value take the first (C47)."
 ],
 "C75": [
  "proved",
  "On element trees. What is left out are the defaults (C12, C62). The registered default of Track.angles, a single angle where a sequence is written, could not be written, but the attribute is never None (track_held)."
 ],
 "C76": [
  "proved",
  "The search of C19 with enough stack (Python's recursion limit is not modelled). Conditions that raise are excluded: the exception ends the search."
 ],
 "C77": [
  "proved",
  "Combines C46, C01 and C60; the conditions are those of C46 (fine) and C01 (rt_ok), each with its refutation there."
 ],
 "C78": [
  "proved",
  "The search of C19 with enough stack. The condition on ids already in the list is needed: C78_takeover shows a style added to the document's own list taking over an id that so far belonged to a style of a feature."
 ],
 "C79": [
  "proved",
  "Element trees and full precision, as in C01; C79_every_verbosity for all verbosities, with the relation of C12. The conditions are needed: C79_lost (a style without contents is not written, so references to it are lost) and C79_one_id_twice (with one id for a style map and a style, grouping redirects the reference)."
 ]
}