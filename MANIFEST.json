{
 "claims": [
  {
   "property": "C01",
   "status": "proved",
   "theorems": [
    "C01_write_read_same_data",
    "C01_write_read_identity",
    "C01_any_name_spaces"
   ],
   "note": "for all objects with declared types, readable dates and aligned tracks; same data, and identity for settled objects"
  },
  {
   "property": "C02",
   "status": "partial",
   "theorems": [
    "C02_second_generation_refuted",
    "C02_converges_partial",
    "C02_first_generation_partial"
   ],
   "note": "refuted as stated (an object holding only an empty object disappears one generation later); proved: convergence after at most size-many generations, and fixed point at once without empty sub-objects"
  },
  {
   "property": "C03",
   "status": "proved",
   "theorems": [
    "C03_strict_success_is_lenient_success",
    "C03_from_string",
    "C03_parse"
   ],
   "note": "for every registry and every element, through class_from_element, from_string and KML.parse"
  },
  {
   "property": "C04",
   "status": "partial",
   "theorems": [
    "C04_strict_raises_parse_error_or_agrees",
    "C04_lenient_returns_iff_calm_partial",
    "C04_lenient_never_raises_partial",
    "C04_strict_raises_only_parse_error_partial",
    "C04_exceptions_partial",
    "C04_lenient_never_raises_refuted",
    "C04_strict_raises_only_parse_error_refuted"
   ],
   "note": "refuted as stated (integer attributes, Schema without id, empty when, blank gx:coord, more times than positions raise other exceptions); proved: strict raises KMLParseError or agrees with lenient; exact condition for lenient success; no exception without Schema, Track and integer attributes; the only exceptions are KMLParseError (strict only), ValueError (integer attributes), KMLSchemaError (Schema) and TypeError (Track), for every element"
  },
  {
   "property": "C05",
   "status": "proved",
   "theorems": [
    "C05_float_text_roundtrip",
    "C05_all_doubles"
   ],
   "note": "exact round trip for all 2^64 bit patterns (NaN payloads identified)"
  },
  {
   "property": "C06",
   "status": "proved",
   "theorems": [
    "C06_rounding_accurate",
    "C06_no_drift",
    "C06_coordinates_no_drift"
   ],
   "note": "accuracy, no drift for single numbers and for coordinate lists"
  },
  {
   "property": "C07",
   "status": "proved",
   "theorems": [
    "C07_integers",
    "C07_booleans",
    "C07_enumerations",
    "C07_library_items"
   ],
   "note": "item level for every item kind of the library, all integers below the digit limit"
  },
  {
   "property": "C08",
   "status": "proved",
   "theorems": [
    "C08_coordinates_roundtrip",
    "C08_coordinates_exact",
    "C08_whitespace_irrelevant"
   ],
   "note": "texts up to white space"
  },
  {
   "property": "C09",
   "status": "partial",
   "theorems": [
    "C09_text_roundtrip_partial",
    "C09_text_roundtrip_refuted"
   ],
   "note": "refuted for years before 1000 (strftime %Y); proved for everything else with whole-minute offsets"
  },
  {
   "property": "C10",
   "status": "proved",
   "theorems": [
    "C10_normalisation",
    "C10_valid"
   ],
   "note": ""
  },
  {
   "property": "C11",
   "status": "proved",
   "theorems": [
    "C11_year",
    "C11_year_month",
    "C11_date",
    "C11_classification",
    "C11_errors"
   ],
   "note": "both directions of the regular expression; arrow is an oracle for other texts"
  },
  {
   "property": "C12",
   "status": "proved",
   "theorems": [
    "C12_same_effective_values",
    "C12_terse_omits_defaults",
    "C12_verbose_shows_defaults",
    "C12_verbosity_below"
   ],
   "note": "all objects and verbosities, effective values compared with ==; terse omits, verbose shows (unless the text is empty), same verbosity at every depth"
  },
  {
   "property": "C13",
   "status": "partial",
   "theorems": [
    "C13_second_save_refuted",
    "C13_second_save_partial"
   ],
   "note": "refuted (Lod with the default minimum loses its maximum at the second save); proved when nothing in the re-read object counts as empty"
  },
  {
   "property": "C14",
   "status": "proved",
   "theorems": [
    "C14_edits_do_not_matter",
    "C14_only_sequences_per_tag_matter",
    "C14_only_what_is_looked_for_matters"
   ],
   "note": "for every registry: swaps of children with different tags, swaps of XML attributes with different names, and unknown children and attributes, at any depth; exact dependency relation"
  },
  {
   "property": "C15",
   "status": "proved",
   "theorems": [
    "C15_document_order_within_class",
    "C15_grouping_is_stable",
    "C15_mixed_order_refuted"
   ],
   "note": "order within each class, for every list attribute and every document; order across classes is by class in the order of the registry (the naive claim is refuted)"
  },
  {
   "property": "C16",
   "status": "partial",
   "theorems": [
    "C16_fallback_partial",
    "C16_fallback_refuted"
   ],
   "note": "refuted for lists, where the fallback is never reached; proved for all other attributes that declare both name spaces, recursively"
  },
  {
   "property": "C17",
   "status": "proved",
   "theorems": [
    "C17_items_after_history",
    "C17_other_classes",
    "C17_position"
   ],
   "note": "for every starting registry and every sequence of register calls; the result depends only on the relative order of the calls naming classes of the MRO"
  },
  {
   "property": "C18",
   "status": "partial",
   "theorems": [
    "C18_overlay_refuted",
    "C18_reading_partial",
    "C18_reading_old_documents_partial",
    "C18_writing_partial",
    "C18_writing_old_objects_partial",
    "C18_round_trip_partial",
    "C18_root_items_not_written"
   ],
   "note": "refuted for overlay classes (their constructors accept no **kwargs, so registering on them or on a class above them makes reading raise TypeError); proved for every other registration whose attribute, element and getter names are unused, on top of any number of earlier registrations and class definitions"
  },
  {
   "property": "C19",
   "status": "proved",
   "theorems": [
    "C19_sound_and_complete",
    "C19_document_order",
    "C19_left_to_right",
    "C19_list_order",
    "C19_find_first",
    "C19_total",
    "C19_library_objects"
   ],
   "note": "find_all/find on every object and query, with getattr and the comparisons as parameters; order stated with paths. Termination for tree-shaped objects (object graphs with cycles are not values of the model; see C28)."
  },
  {
   "property": "C20",
   "status": "partial",
   "theorems": [
    "C20_style_partial",
    "C20_fragment",
    "C20_no_fragment_refuted",
    "C20_no_fragment"
   ],
   "note": "First Style/StyleMap with the fragment as id, None otherwise; the clause about urls without fragment is refuted (a style with id \"\" matches) and proved for documents whose styles have ids. A ValueError of urlparse for malformed hosts is the parameter bad_host."
  },
  {
   "property": "C21",
   "status": "partial",
   "theorems": [
    "C21_homogeneous_collection_refuted",
    "C21_geometry_back",
    "C21_regrouped",
    "C21_placemark",
    "C21_through_file",
    "C21_file_unchanged",
    "C21_file_order_refuted"
   ],
   "note": "proved for all geometries incl. nested mixed collections, in memory and through a file; collections of one kind become multi-geometries (refuted) and collections are regrouped by class in a file (refuted)"
  },
  {
   "property": "C22",
   "status": "proved",
   "theorems": [
    "C22_multigeometry"
   ],
   "note": ""
  },
  {
   "property": "C23",
   "status": "partial",
   "theorems": [
    "C23_both_refused",
    "C23_stored",
    "C23_dropped_refuted",
    "C23_track"
   ],
   "note": "both given is refused, also by Track; what is given is stored, the times, positions and angles of a Track pairwise; refuted for Polygon inner boundaries, falsy kml_geometry of Placemark and Track without coords"
  },
  {
   "property": "C24",
   "status": "partial",
   "theorems": [
    "C24_alignment_refuted",
    "C24_items_pair_partial",
    "C24_strict_partial"
   ],
   "note": "refuted in lenient mode: an unreadable entry shifts the pairing; proved when every entry is readable, and in strict mode"
  },
  {
   "property": "C25",
   "status": "proved",
   "theorems": [
    "C25_track_round_trip",
    "C25_items_without_angle_refuted"
   ],
   "note": "all lists of items with time, position and angle whose times survive the text form (C09); refuted for items without an angle"
  },
  {
   "property": "C26",
   "status": "partial",
   "theorems": [
    "C26_reflexive",
    "C26_symmetric_refuted",
    "C26_symmetric_partial",
    "C26_transitive_refuted",
    "C26_transitive_partial",
    "C26_same_xml_refuted",
    "C26_same_xml_partial"
   ],
   "note": "Reflexivity proved for every typed object without NaN whose geometries can be computed and equal themselves. Symmetry and transitivity proved for objects without geometry, and for all others relative to pygeoif's == (an oracle), if no geometry was given extra keyword arguments. Equal objects that spell equal numbers and moments alike, and whose equal shapes agree in what == does not look at (how the shape is written down, the altitude mode of lines and polygons), are written as the same XML. Refuted: symmetry with extra keyword arguments, transitivity with pygeoif's approximate comparison, same XML for lines and polygons (altitude mode ignored), line versus ring, 1 versus 1.0, -0.0, time zones."
  },
  {
   "property": "C27",
   "status": "partial",
   "theorems": [
    "C27_equal_partial",
    "C27_exact_partial",
    "C27_keywords",
    "C27_nan_refuted",
    "C27_enum_argument_refuted",
    "C27_none_argument_refuted",
    "C27_schema_refuted",
    "C27_exact_refuted"
   ],
   "note": "Proved for every typed object whose parts were returned by constructors: the printed call evaluates to an object equal to it in both directions (lines, rings and polygons are rebuilt from geometry=...), and to exactly the same object if it contains no line, ring or polygon. Numbers must have literals (no nan or inf), extra keyword arguments must be neither None nor enumeration members, and the five private base classes are excluded. Refuted: nan, enumeration and None among extra arguments, a Schema with blank id, exactness for lines (mixed dimensions lose the coordinates)."
  },
  {
   "property": "C28",
   "status": "partial",
   "theorems": [
    "C28_at_end",
    "C28_written",
    "C28_not_in_itself",
    "C28_cycle_refuted",
    "C28_root_in_itself_refuted",
    "C28_terminates_partial",
    "C28_cycle_never_written"
   ],
   "note": "refuted as stated: a cycle through two containers, or the KML root inside itself, is accepted and writing never ends; proved: appended at the end, nothing else changes, a container is never its own direct member, and writing ends exactly for histories that put nothing below itself"
  },
  {
   "property": "C29",
   "status": "partial",
   "theorems": [
    "C29_uris_do_not_matter",
    "C29_parse_detects_the_name_space",
    "C29_explicit_ns_wins",
    "C29_arguments_unchanged_refuted"
   ],
   "note": "refuted: the dictionary passed as name_spaces is modified; proved: the URI of the root name space does not matter, an explicit ns wins"
  },
  {
   "property": "C30",
   "status": "partial",
   "theorems": [
    "C30_all_in_kml_partial",
    "C30_seen_as_regular",
    "C30_read_back_partial",
    "C30_all_in_kml_refuted",
    "C30_read_back_refuted"
   ],
   "note": "refuted for documents with gx content: gx altitude modes are written in the gx name space, and a gx:Track with ns='' comes back without points; proved when the gx and atom objects have their own name space (reading back) and when there are no gx altitude modes (all elements in KML); the XML rule for default name spaces (as_read) is part of the trusted base"
  },
  {
   "property": "C31",
   "status": "partial",
   "theorems": [
    "C31_white_space_is_invisible_partial",
    "C31_white_space_is_invisible_refuted"
   ],
   "note": "refuted for the text of when in tracks (not stripped); proved for everything else at any depth"
  },
  {
   "property": "C32",
   "status": "partial",
   "theorems": [
    "C32_malformed_refuted",
    "C32_dropped_refuted",
    "C32_coordinates_partial",
    "C32_never_silent_partial",
    "C32_geometry_partial"
   ],
   "note": "refuted as stated: only the first tuple is checked, and inside a placemark a false geometry is dropped first; proved: coordinates whose first tuple has a wrong length are refused with KMLWriteError and no object they belong to is ever written"
  },
  {
   "property": "C33",
   "status": "partial",
   "theorems": [
    "C33_dropped_refuted",
    "C33_true_parts_written_partial",
    "C33_covering_written_partial",
    "C33_coordinates_true_partial",
    "C33_nested_geometry_true_partial"
   ],
   "note": "refuted for IconStyle, Lod, NetworkLink, mixed-dimension lines; proved: every true part at any depth has its own element, 38 classes (listed) are true whenever any data attribute is set, and geometries with uniform coordinates are true"
  },
  {
   "property": "C34",
   "status": "partial",
   "theorems": [
    "C34_screen_overlay_refuted",
    "C34_features_read_partial"
   ],
   "note": "refuted for ScreenOverlay, the only such class (listed by computation); proved for all features of the classes the root reads"
  },
  {
   "property": "C35",
   "status": "proved",
   "theorems": [
    "C35_lenient",
    "C35_unique",
    "C35_strict",
    "C35_element"
   ],
   "note": "all texts, all enumerations of the library; lower() is modelled for ASCII and U+212A"
  },
  {
   "property": "C36",
   "status": "partial",
   "theorems": [
    "C36_strict",
    "C36_lenient",
    "C36_numbers_refuted",
    "C36_element"
   ],
   "note": "complete decision table proved; 'never a wrong boolean' is refuted in lenient mode by nan and 1e-400"
  },
  {
   "property": "C37",
   "status": "partial",
   "theorems": [
    "C37_text_stripped",
    "C37_ids_refuted",
    "C37_idempotent",
    "C37_library_idempotent",
    "C37_schema_refuted"
   ],
   "note": "proved for all text attributes except ids (kept unstripped: refuted); idempotence proved for all classes, refuted for a Schema with blank id"
  },
  {
   "property": "C38",
   "status": "proved",
   "theorems": [
    "C38_explicit_ns",
    "C38_default_ns",
    "C38_effective_map",
    "C38_map_idempotent",
    "C38_reader"
   ],
   "note": ""
  },
  {
   "property": "C39",
   "status": "partial",
   "theorems": [
    "C39_not_inherited_refuted",
    "C39_inherited_partial",
    "C39_default_uniform"
   ],
   "note": "refuted for coordinates and boundaries; rings of boundaries, members of multi-geometries, geometry of placemarks and icons inherit; uniform with the default name spaces"
  },
  {
   "property": "C40",
   "status": "partial",
   "theorems": [
    "C40_arguments",
    "C40_no_support",
    "C40_valid",
    "C40_invalid",
    "C40_only",
    "C40_parse",
    "C40_parse_default",
    "C40_parse_plain",
    "C40_no_support_refuted"
   ],
   "note": "the clause \"None without schema support\" is refuted (a schema compiled under another XML library stays cached); every other clause proved with the XML library as parameters"
  },
  {
   "property": "C41",
   "status": "proved",
   "theorems": [
    "C41_style_map"
   ],
   "note": "All style maps with documented types."
  },
  {
   "property": "C42",
   "status": "proved",
   "theorems": [
    "C42_exclusive",
    "C42_reflects"
   ],
   "note": "Exclusivity for every object; exact values for features with documented types."
  },
  {
   "property": "C43",
   "status": "partial",
   "theorems": [
    "C43_nothing_is_invented_partial",
    "C43_nothing_is_invented_refuted"
   ],
   "note": "refuted for the angles of a track (0 0 0 is invented); proved for all other attributes of all classes"
  },
  {
   "property": "C44",
   "status": "partial",
   "theorems": [
    "C44_given_icon_replaced_refuted",
    "C44_precedence_partial"
   ],
   "note": "refuted for a given icon without href; other rows of the table proved"
  },
  {
   "property": "C45",
   "status": "proved",
   "theorems": [
    "C45_reader_is_typed"
   ],
   "note": ""
  },
  {
   "property": "C46",
   "status": "partial",
   "theorems": [
    "C46_line_refuted",
    "C46_nan_refuted",
    "C46_read_then_written_partial",
    "C46_typed_written_partial",
    "C46_exceptions",
    "C46_read_exceptions"
   ],
   "note": "refuted by \"1 2 3\" as line coordinates and by NaN altitudes; proved for everything read whose coordinate tuples have 2 or 3 non-NaN members, and for typed hand-built objects; writing raises nothing but KMLWriteError, TypeError, DimensionError or ValueError, each only for its cause (C46_exceptions, C46_read_exceptions)"
  },
  {
   "property": "C47",
   "status": "proved",
   "theorems": [
    "C47_first_of_repeated"
   ],
   "note": ""
  },
  {
   "property": "C48",
   "status": "partial",
   "theorems": [
    "C48_structure_valid_partial",
    "C48_built_in_names",
    "C48_document_order_refuted",
    "C48_two_features_refuted",
    "C48_style_order_refuted",
    "C48_data_order_refuted",
    "C48_data_value_refuted",
    "C48_link_href_refuted",
    "C48_simple_data_name_refuted",
    "C48_icon_refresh_refuted",
    "C48_verbose_icon_refuted",
    "C48_track_time_refuted"
   ],
   "note": "refuted for documents with both features and schemata (written in the wrong order), several features below kml, sub-styles or extended data in another order than the schema's, Data without value, atom:link without href, SimpleData without name, icons of icon styles with refresh settings (always so in verbose mode), track items without time; proved for all other well-typed documents in regular name spaces; only the structure, not the lexical form of the values, is covered; the reading of the XSD files (tools/gen_schema.py, Schema.v) is part of the trusted base"
  },
  {
   "property": "C49",
   "status": "partial",
   "theorems": [
    "C49_values_well_written_partial",
    "C49_values_in_range_partial",
    "C49_infinity_refuted",
    "C49_nan_refuted",
    "C49_big_integer_refuted",
    "C49_early_year_refuted",
    "C49_offset_seconds_refuted",
    "C49_wide_offset_refuted",
    "C49_angle_refuted",
    "C49_colour_refuted",
    "C49_identifier_refuted",
    "C49_email_refuted"
   ],
   "note": "Proved for all plain values that the texts of booleans, integers, numbers, dates and enumerations have the form of their schema types, and for all values in range (fitting) that the texts are in the ranges of the angle types and have the patterns of colours, identifiers, e-mail addresses, media types and language tags. Refuted for infinite floats and NaN (written inf and nan), integers beyond 32 bits, years before 1000 without a day, offsets with seconds or beyond 14 hours, angles out of range, colours, identifiers and e-mail addresses without their patterns (nothing checks them). Uniqueness of identifiers is not covered; the lexical forms (Lexical.v, Facets.v) and the reading of the XSD files are part of the trusted base."
  },
  {
   "property": "C50",
   "status": "partial",
   "theorems": [
    "C50_schema_documents_read_partial",
    "C50_valid_documents_read_partial",
    "C50_lod_refuted",
    "C50_field_type_refuted",
    "C50_schema_id_refuted",
    "C50_coordinates_refuted",
    "C50_track_refuted",
    "C50_long_year_refuted"
   ],
   "note": "refuted where the library asks for more than the schema: fractional numbers in Lod, other types of SimpleField than those of OGC KML, Schema without id, coordinates that are no numbers, more times than positions in gx:Track; a year of six digits is read as a year and a month; proved for documents that meet these demands, in whatever order the elements come; dates with a zone, years of more than four digits, times in Z or with other fractions than of six digits only as far as arrow accepts them"
  },
  {
   "property": "C51",
   "status": "partial",
   "theorems": [
    "C51_schema_defaults_partial",
    "C51_defaults_declared_partial",
    "C51_lod_refuted",
    "C51_hot_spot_refuted",
    "C51_view_format_refuted"
   ],
   "note": "Proved for every attribute with a default in the schema, every object, verbosity and precision, except three attributes where the library's default is not that of the schema: min_lod_pixels of Lod (256 against 0.0) and x, y of HotSpot (0.5 against 1.0); refuted for these (terse output changes the meaning of the document for other readers). Also shown: every scalar attribute with a registered default has a default in the schema, except viewFormat (refuted). Texts of xs:boolean, numbers, enumerations and plain texts are given their meaning by the relation means."
  },
  {
   "property": "C52",
   "status": "partial",
   "theorems": [
    "C52_text_tells_the_element",
    "C52_text_round_trip_partial",
    "C52_unprefixed_round_trip_partial",
    "C52_prefixes_registered",
    "C52_text_round_trip_refuted",
    "C52_text_is_xml_refuted"
   ],
   "note": "Proved for every typed object whose strings and name spaces consist of XML characters without carriage returns (xml_object), any precision, verbosity and registered prefixes: the text is parsed to exactly the element written; regular readable objects come back with the same data (identical when settled), also those with ns=''. Refuted otherwise: a carriage return comes back as line feed, a control character makes the text unparsable. The text is that of the standard library's ElementTree (CPython 3.11); either library may read it, the parser is a model of XML 1.0 with Namespaces; pretty printing (lxml only) is covered by C31. Further registered prefixes keep this true (C52_prefixes_registered)."
  },
  {
   "property": "C53",
   "status": "partial",
   "theorems": [
    "C53_file_round_trip_partial",
    "C53_unprefixed_file_partial",
    "C53_utf8",
    "C53_file_round_trip_refuted",
    "C53_written_refuted"
   ],
   "note": "Proved for every KML document as in C52, with or without prefix: writing succeeds, the bytes (of the file or of the member doc.kml) are read by KML.parse to the same data. Refuted: KML.parse does not open the archives that KML.write makes, and a surrogate in a string makes write raise UnicodeEncodeError. UTF-8 is modelled in full; zip archives are modelled as lists of members."
  },
  {
   "property": "C54",
   "status": "partial",
   "theorems": [
    "C54_reading_unchanged",
    "C54_writing_unchanged",
    "C54_round_trip_partial",
    "C54_derived_object_refuted",
    "C54_name_space_refuted"
   ],
   "note": "Reading and writing of everything else proved unchanged for every new class, on top of any number of registrations and class definitions; round trip proved for all typed objects of all such libraries. Refuted: an object of a class derived from Placemark inside a folder is written but not read again (the reader looks for the registered tags only); a text registered for ns_ids (\"kml\", \"\") in a class whose name space is gx is written in gx and never found."
  },
  {
   "property": "C55",
   "status": "partial",
   "theorems": [
    "C55_documents_are_read",
    "C55_terms",
    "C55_spelling_partial",
    "C55_files_partial",
    "C55_comment_refuted",
    "C55_encoding_refuted"
   ],
   "note": "Proved for every document of the grammar (syntax trees that keep all choices of the author, XmlMarkup.v): it is read as its tree says, and documents that differ in spelling only are read alike, as texts and as files in UTF-8, with ElementTree without exception and with lxml if comments do not stand between the characters of an element. Refuted for lxml: a comment inside coordinates silently drops the points behind it (Element.text ends there), and from_string refuses texts that declare their encoding. Document types are not modelled; repair of malformed files by lxml (recover=True) neither."
  },
  {
   "property": "C56",
   "status": "partial",
   "theorems": [
    "C56_lxml_tells_the_element",
    "C56_lxml_round_trip_partial",
    "C56_lxml_unprefixed_partial",
    "C56_libraries_agree_partial",
    "C56_lxml_file_round_trip_partial",
    "C56_libraries_agree_refuted",
    "C56_lxml_written_refuted",
    "C56_lxml_name_space_refuted"
   ],
   "note": "Proved for every typed object whose strings consist of XML characters (carriage returns included) and whose name spaces need no escape (lxml_object), any registered prefixes and numbering, indented or not: lxml's text is well-formed and both libraries build from it the element written but for white space; regular readable objects come back with the same data, as text and as file, and the result is that of ElementTree's text, for every class and mode. Condition for documents in a name space: no object inside has ns=''. Refuted without it (lxml's default name space adopts such an object, ElementTree's text loses it), for control characters (lxml raises ValueError when the element gets them) and for a name space with an ampersand (libxml2 does not escape it)."
  },
  {
   "property": "C57",
   "status": "partial",
   "theorems": [
    "C57_values_found_partial",
    "C57_documents_found_partial",
    "C57_written_found_partial",
    "C57_named_sources",
    "C57_screen_overlay_refuted",
    "C57_track_in_multi_geometry_refuted",
    "C57_list_style_refuted",
    "C57_pair_refuted",
    "C57_tour_refuted",
    "C57_update_refuted",
    "C57_track_extrude_refuted",
    "C57_box_id_refuted",
    "C57_authors_refuted"
   ],
   "note": "proved for all elements of the schema but a stated list that the library has no place for or leaves out (each kind refuted by a witness: ScreenOverlay below kml, tracks in MultiGeometry, ListStyle in Style, Style beside styleUrl in Pair, Tour, Update, extrude of Track, ids of boxes, further names of an author); the parts of the items of a track are dealt with in C24. Conversely an attribute is only set by something of its name (C57_named_sources), and what is written for a settled object is found in the object under these names"
  },
  {
   "property": "C58",
   "status": "partial",
   "theorems": [
    "C58_lists_are_values_partial",
    "C58_callers_lists",
    "C58_own_lists",
    "C58_same_object",
    "C58_coordinates_refuted"
   ],
   "note": "refuted for Coordinates(coords=l), which keeps the list it is given (geometry.py:269); proved for every other list and dictionary parameter and all histories"
  },
  {
   "property": "C59",
   "status": "proved",
   "theorems": [
    "C59_decimal_texts",
    "C59_special_texts",
    "C59_no_other_float",
    "C59_integer_texts",
    "C59_no_other_integer",
    "C59_underscores",
    "C59_other_scripts",
    "C59_values_read"
   ],
   "note": "About the models of int() and float() (PyInt.v, PyFloat.v) and of the four functions of helpers.py that call them."
  },
  {
   "property": "C60",
   "status": "partial",
   "theorems": [
    "C60_same_result",
    "C60_strict_reports_what_it_raises",
    "C60_reported_is_refused",
    "C60_forgiven_is_reported_partial",
    "C60_forgiven_is_reported_refuted",
    "C60_reports_are_justified",
    "C60_dropped_is_reported"
   ],
   "note": "refuted for booleans: other spellings (TRUE, 2) are taken silently; proved for everything else, for every registry, in both directions (what is reported is justified, what is dropped is reported). Entry points from_string and KML.parse after XML parsing"
  },
  {
   "property": "C61",
   "status": "proved",
   "theorems": [
    "C61_one_attribute",
    "C61_one_part",
    "C61_edited_document",
    "C61_one_member_added"
   ],
   "note": "On element trees (before XML text, see C52 for the text). The edit is one that leaves the object in its place: an object that becomes false (an empty geometry) is no longer written, which is an edit of the attribute that holds it."
  },
  {
   "property": "C62",
   "status": "partial",
   "theorems": [
    "C62_verbose_spells_out_partial",
    "C62_terse_leaves_out_partial",
    "C62_no_default",
    "C62_verbose_refuted",
    "C62_terse_refuted"
   ],
   "note": "Refuted for 23 attributes without a default in the library (among them the sides of LatLonBox and LatLonAltBox and range of LookAt; the list is shown to be exact) and for the three of C51 with another default; proved for all others."
  },
  {
   "property": "C63",
   "status": "proved",
   "theorems": [
    "C63_one_element",
    "C63_one_registration",
    "C63_one_attribute",
    "C63_tracks"
   ],
   "note": "On element trees. Both documents are assumed to be read: when strict or lenient reading raises instead is C04. The times, positions and angles of a track make up one attribute, its items: those before the damaged entry are kept (C63_tracks), the later ones can all change (C24)."
  },
  {
   "property": "C64",
   "status": "proved",
   "theorems": [
    "C64_reading",
    "C64_nobody_else",
    "C64_lists_are_values"
   ],
   "note": "The memory of C58 with the reader on it. The reader on memory is shown to give the object, or raise the exception, of the reader on trees."
  },
  {
   "property": "C65",
   "status": "proved",
   "theorems": [
    "C65_same_text"
   ],
   "note": "For objects as in C52 (ElementTree) and C56 (lxml). The settled condition is needed: an empty time stamp is not written (C65_example)."
  },
  {
   "property": "C66",
   "status": "proved",
   "theorems": [
    "C66_texts",
    "C66_files",
    "C66_read",
    "C66_one_meaning"
   ],
   "note": "The converse of C55. Grammar in XmlMarkup.v, whose terms are those of XML 1.0 (XmlTerms.v, C55_terms); name spaces as a relation in XmlNames.v, which does not use the parser. Outside the model: document type declarations, encodings other than UTF-8, and lxml's repair of files that are not well-formed (KML.parse passes recover=True)."
  },
  {
   "property": "C67",
   "status": "proved",
   "theorems": [
    "C67_cut",
    "C67_pasted"
   ],
   "note": "On element trees; with C66 the element cut out is that of a text. Cutting holds for every registry, pasting for lists of members; a single sub-object is read from the first element with its tag. Whether the object pasted has a truth value is an assumption, since some constructors drop empty members (C33)."
  },
  {
   "property": "C68",
   "status": "partial",
   "theorems": [
    "C68_reading_in_turn_partial",
    "C68_dictionary",
    "C68_reading_in_turn_refuted"
   ],
   "note": "Refuted: after KML.parse of a file in another name space, with a non-empty dictionary, from_string with the same dictionary finds nothing in a document that alone is read completely. Proved otherwise, with what the dictionary holds afterwards. Entry points after XML parsing (C66)."
  },
  {
   "property": "C69",
   "status": "proved",
   "theorems": [
    "C69_objects",
    "C69_of_one_class",
    "C69_depth"
   ],
   "note": "On element trees. The counts are for the library's registry, in which each tag is looked for by one registration of a class (C63_one_registration); the bound on the depth holds for every registry."
  },
  {
   "property": "C70",
   "status": "proved",
   "theorems": [
    "C70_positions_only",
    "C70_same_outcome"
   ],
   "note": "About the element trees; how close a number with p decimals is to the number in full is C06. The outcome is shown to be the same for objects that were read; an object made by hand can hold an int too large for a float, which has a text but no text with a precision (C70_outcome_example)."
  },
  {
   "property": "C71",
   "status": "proved",
   "theorems": [
    "C71_written_once",
    "C71_of_one_name",
    "C71_no_object_twice",
    "C71_no_object_missing",
    "C71_depth"
   ],
   "note": "On element trees. That objects with the truth value false are not written at all is C33; elements are told apart by their local names, and no class has the name of a text (class_tags in PropOnce.v)."
  },
  {
   "property": "C72",
   "status": "proved",
   "theorems": [
    "C72_as_alone",
    "C72_nothing_else",
    "C72_two_documents",
    "C72_failure_spreads"
   ],
   "note": "On element trees. The same for the reader is C67. That the elements standing for objects are as many as the objects is C71."
  },
  {
   "property": "C73",
   "status": "proved",
   "theorems": [
    "C73_written",
    "C73_truth_and_geometry",
    "C73_keywords"
   ],
   "note": "On element trees. The classes of C45 (typed) fix an order of the attributes; this theorem shows that nothing written depends on it. Equality of dictionaries is that of C26; repr shows the unknown keyword arguments in their order and is not spoken of here."
  },
  {
   "property": "C74",
   "status": "proved",
   "theorems": [
    "C74_written",
    "C74_read",
    "C74_counted"
   ],
   "note": "On element trees. Reading sorts the members by class (C15), so the statement about reading is one for each class. Attributes that hold one value take the first (C47)."
  },
  {
   "property": "C75",
   "status": "proved",
   "theorems": [
    "C75_only_adds",
    "C75_verbose_writes"
   ],
   "note": "On element trees. What is left out are the defaults (C12, C62). The registered default of Track.angles, a single angle where a sequence is written, could not be written, but the attribute is never None (track_held)."
  },
  {
   "property": "C76",
   "status": "proved",
   "theorems": [
    "C76_conditions",
    "C76_types",
    "C76_order",
    "C76_parts"
   ],
   "note": "The search of C19 with enough stack (Python's recursion limit is not modelled). Conditions that raise are excluded: the exception ends the search."
  },
  {
   "property": "C77",
   "status": "proved",
   "theorems": [
    "C77_repaired"
   ],
   "note": "Combines C46, C01 and C60; the conditions are those of C46 (fine) and C01 (rt_ok), each with its refutation there."
  },
  {
   "property": "C78",
   "status": "proved",
   "theorems": [
    "C78_list_grows",
    "C78_features",
    "C78_styles",
    "C78_added",
    "C78_takeover"
   ],
   "note": "The search of C19 with enough stack. The condition on ids already in the list is needed: C78_takeover shows a style added to the document's own list taking over an id that so far belonged to a style of a feature."
  },
  {
   "property": "C79",
   "status": "proved",
   "theorems": [
    "C79_not_invented",
    "C79_nothing_new",
    "C79_not_redirected",
    "C79_every_verbosity",
    "C79_settled",
    "C79_lost",
    "C79_one_id_twice"
   ],
   "note": "Element trees and full precision, as in C01; C79_every_verbosity for all verbosities, with the relation of C12. The conditions are needed: C79_lost (a style without contents is not written, so references to it are lost) and C79_one_id_twice (with one id for a style map and a style, grouping redirects the reference)."
  }
 ]
}