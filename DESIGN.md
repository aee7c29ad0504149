# Formal model of fastkml

The model is an executable transcription of fastkml (pinned commit in `/repo`)
into Gallina, and theorems about it.  The only tie to the Python code is the
reading of the source, so every definition of the model cites the file and
lines it models.  `rocq/theories/Tables.v` is generated by `tools/gen_tables.py`
and `rocq/theories/Reprs.v` by `tools/gen_reprs.py`
from the syntax trees of the source (nothing of fastkml is imported or run).

Build: `cd rocq && coq_makefile -f _CoqProject -o Makefile && make -j4`.

## Architecture

fastkml is a *registry driven* (de)serialiser: `registry.register(cls, item)`
declares for each class which attributes exist, under which tag and name space
they are stored, and which helper functions read (`get_kwarg`) and write
(`set_element`) them.  `_XMLObject.etree_element` and `class_from_element`
interpret that table.  The model mirrors this: one universal type of values, a
*world* (class table, enumerations, registry, oracle for `arrow`) and an
interpreter.  Generic theorems quantify over worlds that pass a decidable
check (`world_ok`); `FastkmlOk.v` shows by computation that the tables of
fastkml pass it.

### Model (no proofs)

| file | models |
| --- | --- |
| `Ustr.v` | Python `str` as lists of code points: strip, split, lower, digits |
| `Res.v` | exceptions as values (`Ok a`, `Err e`) |
| `PyInt.v`, `PyFloat.v` | `int()`, `str(int)`, IEEE binary64, `float()`, `repr(float)`, `f"{x:.pf}"` |
| `PyDate.v` | `date`, `datetime`, `KmlDateTime` (times.py) |
| `Elem.v` | ElementTree elements: `find`, `findall`, `get`, `set` |
| `Value.v` | Python values, library objects, the shape of class and registry tables, registry.py |
| `Tables.v` | generated: every class, constructor, `__bool__`, enumeration and registration |
| `Geom.v` | pygeoif geometries, all `geometry` properties, all `__bool__` methods |
| `Codec.v` | helpers.py, geometry.py and gx.py helpers, constructors, base.py reader and writer, `KML` reader and writer |
| `Report.v` | the reader of `Codec.v` with what it logs or raises: messages of `handle_error`, `handle_invalid_geometry_error`, `RelaxedEnum._missing_` (texts of nested exceptions left out) |
| `Api.v` | `from_string`, `to_string`, `KML.parse` on top of the interpreter |
| `Session.v` | calls of `KML.parse` and `from_string` one after the other with one dictionary of name spaces |
| `Create.v` | constructors that build children: geometries, boundaries, placemarks, icons |
| `Find.v` | utils.py, `Document.get_style_by_url`, `StyleMap`, `TimeMixin` |
| `Append.v` | `_Container.append`, `KML.append` on a heap of mutable objects |
| `Alias.v` | constructors and changes in place on a memory of lists, dictionaries and objects |
| `AliasRead.v` | the reader (`class_from_element`, `_get_kwargs`, `get_kwarg` functions) on that memory |
| `Validate.v` | validator.py, `KML.validate`, the validating `KML.parse` |
| `Equal.v` | the four `__eq__` methods |
| `Reprs.v` | generated: what each `__repr__` method prints |
| `Repr.v` | the `__repr__` methods and evaluation of what they print |
| `SchemaTables.v` | generated: types and elements of fastkml/schema (kml22gx.xsd and what it imports) |
| `Schema.v` | when an element tree has the structure an XML schema asks for |
| `Xml.v` | ElementTree's serialiser (CPython 3.11), config.py `register_namespaces`, an XML parser with name spaces as ElementTree and lxml use it |
| `XmlDoc.v` | `to_string`, `from_string` on text, UTF-8, `KML.write`, `KML.parse` on files |
| `Lxml.v` | name space declarations of lxml's trees, its serialiser (libxml2) with and without indentation, `to_string` and `KML.write` with lxml |

### Vocabulary of the statements (no proofs)

`Spec.v` (typed objects, what a round trip makes of an object), `Same.v` (same
data), `Settled.v`, `Agree.v`, `Layout.v` (edits of documents), `Calm.v`,
`Effective.v`, `Erase.v`, `NsChange.v`, `Extend.v`, `NewClass.v`, `GeoSpec.v`, `CoordSpec.v`,
`FindSpec.v`, `EqualSpec.v`, `ReprSpec.v`, `Unprefixed.v`, `SchemaSpec.v`,
`Lexical.v` (lexical forms of simple types), `Facets.v` (their ranges and patterns), `SchemaRead.v` (documents of the
schema the strict reader accepts), `Found.v` (where the values of a document
are found), `SchemaDefaults.v` (default values of the
schema), `AliasSpec.v` (memory without shared lists), `NumSpec.v` (texts of numbers and the nearest double), `ReportSpec.v` (when a report is due), `EditSpec.v` (documents that differ in one part), `LocalSpec.v` (objects inside objects), `DamageSpec.v` (documents with one damaged element and what is read from it), `XmlSpec.v` (what XML text can tell), `LxmlSpec.v` (what lxml can write), `XmlMarkup.v` (syntax trees of XML
documents, documents that differ in spelling only), `XmlTerms.v` (terms of XML 1.0), `XmlNames.v` (name spaces as a relation), `Samples.v` (documents for examples).

### Proofs

`*Proofs.v`, `RoundTrip.v`, `Generations.v`, `ReaderTyped.v`, `Outcome.v`,
`DateForms.v`, `DateThms.v`, `AliasLoad.v`, `AliasFrame.v`, `SchemaCheck.v`, `ValuesWritten.v` hold lemmas.  `Prop*.v` hold the theorems
`Cnn_...`, each followed by `Print Assumptions` and by an `Example` whose
objects meet its hypotheses.

## Trusted base

* The Coq 8.16.1 kernel, including `vm_compute`.
* Axioms: none.  `Print Assumptions` reports "Closed under the global context"
  for every theorem.
* The reading of the Python source into the model, including `gen_tables.py`,
  `gen_reprs.py` and `gen_schema.py`.
* For C30 the rule of XML for default name spaces, transcribed as `as_read`
  (`Unprefixed.v`): the `xmlns` attribute the root is given is written out and
  read as a declaration.  C52 proves that the parser of `Xml.v` does this.
* For C52, C53 and C55 the serialiser of CPython's ElementTree.py, the grammar of
  XML 1.0 and Namespaces in XML 1.0 (`Xml.v`), what ElementTree and lxml call
  the text of an element, and UTF-8 (`XmlDoc.v`).
* For C56 lxml 5 and libxml2 2.9 as far as fastkml uses them to write
  (`Lxml.v`).  Which number lxml gives to a generated prefix `nsN` is a parameter
  (`fresh`).
* For C48 the meaning of XML Schema content models (`Schema.v`) and
  `gen_schema.py`, which expands substitution groups and type extensions.
  Identity constraints, simple types and `xal` elements are left out; elements
  matched by a wild card must be known (stricter than `lax`).  The schema meant
  is kml22gx.xsd; the default of `validate` is ogckml22.xsd, which knows no gx
  elements.
* For C49 the lexical spaces of xs:boolean, xs:int, xs:double and of the date
  types, transcribed in `Lexical.v`, and the ranges and patterns of `Facets.v`
  (texts are taken as they are, without the collapsing of white space).
* For C51 the default values in the schema (`gen_schema.py`) and what a text
  means (`means` in `SchemaDefaults.v`).
* Parts of the environment that appear in statements as parameters (oracles), so
  that theorems hold whatever they do:
  * `arrow`: `arrow.get` on texts other than those printed by `isoformat`
    (assumed to return an aware datetime or raise `ParserError`);
  * `geq`: `==` between pygeoif geometries (C26);
  * `getattr` on objects that are not library objects, in `Find.v`;
  * the XML schema, error log and XML backend in `Validate.v`;
  * `bad_host`: whether `urlparse` rejects a bracketed host (C20).
* Parts of the environment modelled from documentation: `str`, `int`, `float`,
  `datetime`, `re` of CPython 3.11; ElementTree's element operations; pygeoif's
  constructors (`Point`, `LineString`, `LinearRing`, `Polygon`, `Multi*`,
  `GeometryCollection`), `geoms`, `is_empty`, `shape`.

Simplifications and what is not modelled:

* XML syntax: outside C52, C53, C55 and C56 documents are element trees.  The parser
  of `Xml.v` knows no document types and no other encodings than UTF-8, and
  refuses what it does not know; it was compared with expat on random documents
  (expat accepts version numbers other than `1.x`).  lxml differs in the model
  where `Element.text` ends and in refusing texts that declare an encoding; its
  repair of malformed files (`recover=True`, also in strict mode) and its refusal
  of name spaces that are no URIs are not modelled.  C31 describes
  white space between elements as part of the tree.
* `str.lower` is modelled for ASCII and U+212A (the only other code point whose
  lower case form contains an ASCII letter that occurs in an enumeration).
* Arrow offsets of 24 hours and more count as `ValueError`.
* `str()` of values other than numbers, booleans and strings where the library
  expects numbers, and `int(True)`-like coercions, are `TypeError` in the model.
* The identity shortcut of Python containers (`x is y or x == y`) is not
  modelled; objects are trees, so aliasing is visible only in `Append.v`, `Alias.v` and `AliasRead.v`
  (which shows that trees are enough as long as lists are not handed on by the caller).
* Logging other than the reports of the reader (`Report.v`), warnings, deprecation decorators, the format of zip archives, file
  access errors, type hints, pickling; the choice of the XML library
  (config.py:35-49); `Registry.__init__` and `Registry.__repr__`
  (registry.py:124-135): the registry is the table of `Tables.v`.

## Mutation tests

`seeded/LOG.jsonl` lists edits made to a copy of the model, the claim each edit
breaks, the theorems that then fail, and theorems that had to be tightened.

## Findings

Behaviour of the code that contradicts a property, or that surprised.  The
property number shows where a theorem (usually `..._refuted`) states it.

Reading
* `KML.parse` changes the caller's non-empty `name_spaces` dictionary (C29), so that texts read later with the same dictionary can come out empty (C68).
* A bad `<when>`, an empty `gx:coord` or `gx:angles` shifts the pairing of the
  other entries in lenient mode (C24); more times than positions raise
  `TypeError` (C04); the text of `when` is not stripped (C31).
* Missing angles are read as `0 0 0` (C43), so items with angle `None` come back
  with a zero angle (C25).
* Integer attributes, `Schema` without id, blank coordinates raise exceptions
  other than `KMLParseError`, also in lenient mode (C04).
* Lists read with two name space ids never reach the second one, because the
  empty list found first is not `None` (C16).
* In lenient mode the texts `nan` and `1e-400` are the booleans True and False (C36).
* `2000--15` is read as the year 2000 (C11), and the year `200012` as December
  2000 (C50).
* Documents that are valid against the schema are refused in strict mode if the
  numbers of a `Lod` are fractions (the type is registered as float, but read by
  the function for integers), a `SimpleField` has another type than those of OGC
  KML, a `Schema` has no id, coordinates are no numbers (the schema lets any
  string pass), or a `gx:Track` has more times than positions (C50).
* With lxml a comment inside the text of an element cuts the text: points of
  coordinates behind it are lost silently; `from_string` refuses texts that
  declare their encoding (C55).
* `ScreenOverlay` is not registered on the root, so one directly under `kml` is
  not read (C34).
* Of a schema-valid document these are dropped silently (C57): a `Style` beside a
  `styleUrl` in a `Pair`, and a `StyleMap` there; `ListStyle`; all but the first
  name, uri and email of an author; `maxLines` of `linkSnippet`; `Update`;
  `gx:Tour`; `gx:LatLonQuad`; tracks and models in a `MultiGeometry`; `extrude`,
  `tessellate` and `Model` of a track; `gx:TimeSpan` and `gx:ViewerOptions` of
  views; the ids of `Location`, `Orientation`, `Scale`, `Alias`, `ResourceMap`,
  `ViewVolume`, `ImagePyramid`, the boxes and `Lod`; the full list is
  `lost_children` and `lost_attributes` in `Found.v`.
* Text is stripped except in ids (C37); `<Schema id=" ">` is read, is written
  without id, and can then not be read again (C37).
* Line coordinates `1 2 3` (one triple read as three 1-tuples) make writing raise
  `TypeError`; NaN altitudes in polygons of a multi-geometry raise
  `DimensionError` (C46).

* `Coordinates(coords=l)` keeps the caller's list; all other constructors copy
  (C58).
Writing
* Only the first coordinate tuple is checked for its length; a geometry that
  counts as false (for instance a `Point` with four coordinates, or a line with
  mixed dimensions) is dropped silently from a placemark (C32, C33).
* `IconStyle`, `Lod`, `NetworkLink` and others count as empty although they carry
  data, and are dropped (C33).
* A style without contents is not written, so references to it dangle after
  saving; if a style map and a style share an id, the reference changes from
  one to the other because lists are grouped by class (C79).  A style added to
  a document takes over an id that so far belonged to a style of a feature (C78).
* Terse output followed by reading and saving loses data of `Lod` and
  `ViewVolume` (C13).
* Terse output omits `minLodPixels` 256 and `x`, `y` 0.5 of a hot spot; by the
  schema their defaults are 0 and 1, so other readers see other values (C51).
* An object that holds only empty objects vanishes one generation later (C02).
* Enumeration and date elements are written in the name space of the map, not of
  the object, even with `ns=""`.  A `Track` with `ns=""` is written so that it is
  read back without its points (C30).
* Items registered on the root are read but never written (C18).
* Years before 1000 are written without leading zeros (C09).
* Infinite floats and NaN are written `inf` and `nan`, which XML Schema does not
  know; integers are not limited to 32 bits, offsets of times neither to whole
  minutes nor to 14 hours; angles, colours, identifiers and e-mail addresses are
  not checked (C49).
* What is written need not be valid: `Document` writes schemata after features,
  `KML` takes several features, `Style` and `ExtendedData` keep the order of the
  user, icons of icon styles get refresh settings (in verbose mode always),
  `Data.value`, `atom.Link.href` and `SimpleData.name` may be missing, and track
  items without time become `gx:when` (C48).
* With ElementTree a carriage return in text is written as it is and read as a
  line feed, and control characters are written as they are: the text cannot be
  parsed (C52).
* `KML.write` makes an archive for `.kmz`, which `KML.parse` cannot read (C53).
* An object with `ns=""` inside a document in a name space is KML when lxml
  writes the text and lost when ElementTree writes it (C56).
* A control character in a string makes `to_string` raise `ValueError` with lxml;
  with ElementTree the text is written and no parser accepts it (C52, C56).

Constructors
* `Polygon(geometry=..., inner_boundaries=...)` drops the inner boundaries; a
  false `kml_geometry` of a placemark is replaced by the geometry; `MultiTrack`
  documents `geometry` but does not accept it (C23).
* Coordinates and boundaries created by constructors use the default name space
  instead of the given one (C39).
* An icon without href is replaced by `icon_href` (C44).
* Registering on an overlay class, or above it, makes reading overlays raise
  `TypeError`: the constructors accept no `**kwargs` (C18).
* An object of a class derived from `Placemark` (or any other class of the
  library) in a container is written under its own tag and not read again (C54).
* A homogeneous `GeometryCollection` comes back as `Multi*`; mixed collections
  are regrouped by class in a file (C21).

Other
* `LineString.__eq__` and `Polygon.__eq__` ignore the altitude mode; an empty line
  equals an empty ring; extra keyword arguments make `==` raise in one direction
  (C26).
* `repr` of an object with `nan` or `inf`, or with an enumeration member among
  the extra keyword arguments, is not an expression; extra arguments that are
  `None` are not printed; a line of mixed dimensions prints `geometry=None` and
  a polygon drops the ids of its rings, yet `==` calls the result equal (C27).
* `get_style_by_url` with a URL without fragment returns a style whose id is empty (C20).
* `find_all` without a type also yields dictionary keys, `None`, numbers and tuples (C19).
* Cycles through two containers and `KML.append(self)` are accepted; writing then
  does not terminate (`RecursionError`) (C28).
* The cached schema survives `set_etree_implementation`; a `TypeError` during
  validation makes `KML.parse` fall back to parsing without validation (C40).
* 23 attributes have a default in the schema and none in the library, so verbose documents
  do not spell it out and terse ones do not leave it out (C62).
* Lenient reading takes booleans in other spellings (`TRUE`, `2`, `0.5`) without a
  report, though it reports the other spellings of enumerations and strict
  reading refuses both (helpers.py:745-756; C60).
* Coordinates that cannot be read are reported twice in lenient mode: the
  registration names two namespaces and `subelement_coordinates_kwarg` looks at neither
  (geometry.py:300-310, base.py:354-370; example in `PropReport.v`).

## Properties

<!-- generated by tools/manifest.py -->
* **C01** Write-then-read round trip for every KML object — proved (`PropRoundTrip.v`). For all objects with declared types, readable dates and aligned tracks; same data, and identity for settled objects.
  Theorems: `C01_write_read_same_data`, `C01_write_read_identity`, `C01_any_name_spaces`.
* **C02** Loading and saving is stable from the second generation on — partial (`PropRoundTrip.v`). Refuted as stated (an object holding only an empty object disappears one generation later); proved: convergence after at most size-many generations, and fixed point at once without empty sub-objects.
  Theorems: `C02_second_generation_refuted`, `C02_converges_partial`, `C02_first_generation_partial`.
* **C03** Strict success implies identical lenient result — proved (`PropReader.v`). For every registry and every element, through class_from_element, from_string and KML.parse.
  Theorems: `C03_strict_success_is_lenient_success`, `C03_from_string`, `C03_parse`.
* **C04** Lenient parsing never raises; strict parsing raises only KMLParseError — partial (`PropReader.v`). Refuted as stated (integer attributes, Schema without id, empty when, blank gx:coord, more times than positions raise other exceptions); proved: strict raises KMLParseError or agrees with lenient; exact condition for lenient success; no exception without Schema, Track and integer attributes; the only exceptions are KMLParseError (strict only), ValueError (integer attributes), KMLSchemaError (Schema) and TypeError (Track), for every element.
  Theorems: `C04_strict_raises_parse_error_or_agrees`, `C04_lenient_returns_iff_calm_partial`, `C04_lenient_never_raises_partial`, `C04_strict_raises_only_parse_error_partial`, `C04_exceptions_partial`, `C04_lenient_never_raises_refuted`, `C04_strict_raises_only_parse_error_refuted`.
* **C05** Floating point values survive the text form exactly — proved (`PropNumbers.v`). Exact round trip for all 2^64 bit patterns (NaN payloads identified).
  Theorems: `C05_float_text_roundtrip`, `C05_all_doubles`.
* **C06** Rounding to a precision is accurate and does not drift — proved (`PropNumbers.v`). Accuracy, no drift for single numbers and for coordinate lists.
  Theorems: `C06_rounding_accurate`, `C06_no_drift`, `C06_coordinates_no_drift`.
* **C07** Integer, boolean and enumeration values survive the text form — proved (`PropValues.v`). Item level for every item kind of the library, all integers below the digit limit.
  Theorems: `C07_integers`, `C07_booleans`, `C07_enumerations`, `C07_library_items`.
* **C08** Coordinate lists survive the text form, whatever the white space — proved (`PropNumbers.v`). Texts up to white space.
  Theorems: `C08_coordinates_roundtrip`, `C08_coordinates_exact`, `C08_whitespace_irrelevant`.
* **C09** KmlDateTime text round trip — partial (`PropDates.v`). Refuted for years before 1000 (strftime %Y); proved for everything else with whole-minute offsets.
  Theorems: `C09_text_roundtrip_partial`, `C09_text_roundtrip_refuted`.
* **C10** KmlDateTime normalisation — proved (`PropDates.v`). 
  Theorems: `C10_normalisation`, `C10_valid`.
* **C11** Which date texts are read at which resolution — proved (`PropDates.v`). Both directions of the regular expression; arrow is an oracle for other texts.
  Theorems: `C11_year`, `C11_year_month`, `C11_date`, `C11_classification`, `C11_errors`.
* **C12** Verbosity never changes meaning — proved (`PropVerbosity.v`). All objects and verbosities, effective values compared with ==; terse omits, verbose shows (unless the text is empty), same verbosity at every depth.
  Theorems: `C12_same_effective_values`, `C12_terse_omits_defaults`, `C12_verbose_shows_defaults`, `C12_verbosity_below`.
* **C13** Terse output can be saved again without loss — partial (`PropVerbosity.v`). Refuted (Lod with the default minimum loses its maximum at the second save); proved when nothing in the re-read object counts as empty.
  Theorems: `C13_second_save_refuted`, `C13_second_save_partial`.
* **C14** Unknown content is ignored and sibling order does not matter — proved (`PropReader.v`). For every registry: swaps of children with different tags, swaps of XML attributes with different names, and unknown children and attributes, at any depth; exact dependency relation.
  Theorems: `C14_edits_do_not_matter`, `C14_only_sequences_per_tag_matter`, `C14_only_what_is_looked_for_matters`.
* **C15** Order of heterogeneous lists — proved (`PropLists.v`). Order within each class, for every list attribute and every document; order across classes is by class in the order of the registry (the naive claim is refuted).
  Theorems: `C15_document_order_within_class`, `C15_grouping_is_stable`, `C15_mixed_order_refuted`.
* **C16** Documents without a namespace — partial (`PropNamespaces.v`). Refuted for lists, where the fallback is never reached; proved for all other attributes that declare both name spaces, recursively.
  Theorems: `C16_fallback_partial`, `C16_fallback_refuted`.
* **C17** Registration histories — proved (`PropRegistry.v`). For every starting registry and every sequence of register calls; the result depends only on the relative order of the calls naming classes of the MRO.
  Theorems: `C17_items_after_history`, `C17_other_classes`, `C17_position`.
* **C18** Extending a class does not disturb existing attributes — partial (`PropRegistry.v`). Refuted for overlay classes (their constructors accept no **kwargs, so registering on them or on a class above them makes reading raise TypeError); proved for every other registration whose attribute, element and getter names are unused, on top of any number of earlier registrations and class definitions.
  Theorems: `C18_overlay_refuted`, `C18_reading_partial`, `C18_reading_old_documents_partial`, `C18_writing_partial`, `C18_writing_old_objects_partial`, `C18_round_trip_partial`, `C18_root_items_not_written`.
* **C19** find_all is complete, sound and in document order — proved (`PropFind.v`). Find_all/find on every object and query, with getattr and the comparisons as parameters; order stated with paths. Termination for tree-shaped objects (object graphs with cycles are not values of the model; see C28).
  Theorems: `C19_sound_and_complete`, `C19_document_order`, `C19_left_to_right`, `C19_list_order`, `C19_find_first`, `C19_total`, `C19_library_objects`.
* **C20** get_style_by_url finds the referenced style — partial (`PropFind.v`). First Style/StyleMap with the fragment as id, None otherwise; the clause about urls without fragment is refuted (a style with id "" matches) and proved for documents whose styles have ids. A ValueError of urlparse for malformed hosts is the parameter bad_host.
  Theorems: `C20_style_partial`, `C20_fragment`, `C20_no_fragment_refuted`, `C20_no_fragment`.
* **C21** Geometry to KML to geometry — partial (`PropGeometry.v`). Proved for all geometries incl. nested mixed collections, in memory and through a file; collections of one kind become multi-geometries (refuted) and collections are regrouped by class in a file (refuted).
  Theorems: `C21_homogeneous_collection_refuted`, `C21_geometry_back`, `C21_regrouped`, `C21_placemark`, `C21_through_file`, `C21_file_unchanged`, `C21_file_order_refuted`.
* **C22** Type of a MultiGeometry — proved (`PropGeometry.v`). 
  Theorems: `C22_multigeometry`.
* **C23** Mutually exclusive constructor arguments — partial (`PropGeometry.v, PropTracks.v`). Both given is refused, also by Track; what is given is stored, the times, positions and angles of a Track pairwise; refuted for Polygon inner boundaries, falsy kml_geometry of Placemark and Track without coords.
  Theorems: `C23_both_refused`, `C23_stored`, `C23_dropped_refuted`, `C23_track`.
* **C24** Track items keep time, position and angle together — partial (`PropTracks.v`). Refuted in lenient mode: an unreadable entry shifts the pairing; proved when every entry is readable, and in strict mode.
  Theorems: `C24_alignment_refuted`, `C24_items_pair_partial`, `C24_strict_partial`.
* **C25** Track round trip — proved (`PropTracks.v`). All lists of items with time, position and angle whose times survive the text form (C09); refuted for items without an angle.
  Theorems: `C25_track_round_trip`, `C25_items_without_angle_refuted`.
* **C26** Equality is an equivalence and respects serialisation — partial (`PropEqual.v`). Reflexivity proved for every typed object without NaN whose geometries can be computed and equal themselves. Symmetry and transitivity proved for objects without geometry, and for all others relative to pygeoif's == (an oracle), if no geometry was given extra keyword arguments. Equal objects that spell equal numbers and moments alike, and whose equal shapes agree in what == does not look at (how the shape is written down, the altitude mode of lines and polygons), are written as the same XML. Refuted: symmetry with extra keyword arguments, transitivity with pygeoif's approximate comparison, same XML for lines and polygons (altitude mode ignored), line versus ring, 1 versus 1.0, -0.0, time zones.
  Theorems: `C26_reflexive`, `C26_symmetric_refuted`, `C26_symmetric_partial`, `C26_transitive_refuted`, `C26_transitive_partial`, `C26_same_xml_refuted`, `C26_same_xml_partial`.
* **C27** repr carries the whole object — partial (`PropRepr.v`). Proved for every typed object whose parts were returned by constructors: the printed call evaluates to an object equal to it in both directions (lines, rings and polygons are rebuilt from geometry=...), and to exactly the same object if it contains no line, ring or polygon. Numbers must have literals (no nan or inf), extra keyword arguments must be neither None nor enumeration members, and the five private base classes are excluded. Refuted: nan, enumeration and None among extra arguments, a Schema with blank id, exactness for lines (mixed dimensions lose the coordinates).
  Theorems: `C27_equal_partial`, `C27_exact_partial`, `C27_keywords`, `C27_nan_refuted`, `C27_enum_argument_refuted`, `C27_none_argument_refuted`, `C27_schema_refuted`, `C27_exact_refuted`.
* **C28** Appending to containers — partial (`PropAppend.v`). Refuted as stated: a cycle through two containers, or the KML root inside itself, is accepted and writing never ends; proved: appended at the end, nothing else changes, a container is never its own direct member, and writing ends exactly for histories that put nothing below itself.
  Theorems: `C28_at_end`, `C28_written`, `C28_not_in_itself`, `C28_cycle_refuted`, `C28_root_in_itself_refuted`, `C28_terminates_partial`, `C28_cycle_never_written`.
* **C29** Namespace detection when reading a document — partial (`PropNamespaces.v`). Refuted: the dictionary passed as name_spaces is modified; proved: the URI of the root name space does not matter, an explicit ns wins.
  Theorems: `C29_uris_do_not_matter`, `C29_parse_detects_the_name_space`, `C29_explicit_ns_wins`, `C29_arguments_unchanged_refuted`.
* **C30** Writing without prefix — partial (`PropUnprefixed.v`). Refuted for documents with gx content: gx altitude modes are written in the gx name space, and a gx:Track with ns='' comes back without points; proved when the gx and atom objects have their own name space (reading back) and when there are no gx altitude modes (all elements in KML); the XML rule for default name spaces (as_read) is part of the trusted base.
  Theorems: `C30_all_in_kml_partial`, `C30_seen_as_regular`, `C30_read_back_partial`, `C30_all_in_kml_refuted`, `C30_read_back_refuted`.
* **C31** Pretty printing is invisible to the reader — partial (`PropReader.v`). Refuted for the text of when in tracks (not stripped); proved for everything else at any depth.
  Theorems: `C31_white_space_is_invisible_partial`, `C31_white_space_is_invisible_refuted`.
* **C32** Writer refuses malformed coordinates — partial (`PropWriter.v`). Refuted as stated: only the first tuple is checked, and inside a placemark a false geometry is dropped first; proved: coordinates whose first tuple has a wrong length are refused with KMLWriteError and no object they belong to is ever written.
  Theorems: `C32_malformed_refuted`, `C32_dropped_refuted`, `C32_coordinates_partial`, `C32_never_silent_partial`, `C32_geometry_partial`.
* **C33** No data-carrying object is dropped on write — partial (`PropWriter.v`). Refuted for IconStyle, Lod, NetworkLink, mixed-dimension lines; proved: every true part at any depth has its own element, 38 classes (listed) are true whenever any data attribute is set, and geometries with uniform coordinates are true.
  Theorems: `C33_dropped_refuted`, `C33_true_parts_written_partial`, `C33_covering_written_partial`, `C33_coordinates_true_partial`, `C33_nested_geometry_true_partial`.
* **C34** Everything the KML root writes it can read — partial (`PropWriter.v`). Refuted for ScreenOverlay, the only such class (listed by computation); proved for all features of the classes the root reads.
  Theorems: `C34_screen_overlay_refuted`, `C34_features_read_partial`.
* **C35** Relaxed enumerations — proved (`PropValues.v`). All texts, all enumerations of the library; lower() is modelled for ASCII and U+212A.
  Theorems: `C35_lenient`, `C35_unique`, `C35_strict`, `C35_element`.
* **C36** Boolean texts — partial (`PropValues.v`). Complete decision table proved; 'never a wrong boolean' is refuted in lenient mode by nan and 1e-400.
  Theorems: `C36_strict`, `C36_lenient`, `C36_numbers_refuted`, `C36_element`.
* **C37** Text attributes are normalised once and for all — partial (`PropValues.v`). Proved for all text attributes except ids (kept unstripped: refuted); idempotence proved for all classes, refuted for a Schema with blank id.
  Theorems: `C37_text_stripped`, `C37_ids_refuted`, `C37_idempotent`, `C37_library_idempotent`, `C37_schema_refuted`.
* **C38** Namespace precedence — proved (`PropValues.v`). 
  Theorems: `C38_explicit_ns`, `C38_default_ns`, `C38_effective_map`, `C38_map_idempotent`, `C38_reader`.
* **C39** Children inherit the namespace of their parent — partial (`PropGeometry.v`). Refuted for coordinates and boundaries; rings of boundaries, members of multi-geometries, geometry of placemarks and icons inherit; uniform with the default name spaces.
  Theorems: `C39_not_inherited_refuted`, `C39_inherited_partial`, `C39_default_uniform`.
* **C40** validate decision table — partial (`PropValidate.v`). The clause "None without schema support" is refuted (a schema compiled under another XML library stays cached); every other clause proved with the XML library as parameters.
  Theorems: `C40_arguments`, `C40_no_support`, `C40_valid`, `C40_invalid`, `C40_only`, `C40_parse`, `C40_parse_default`, `C40_parse_plain`, `C40_no_support_refuted`.
* **C41** Style map access — proved (`PropFind.v`). All style maps with documented types.
  Theorems: `C41_style_map`.
* **C42** Time primitives are exclusive — proved (`PropFind.v`). Exclusivity for every object; exact values for features with documented types.
  Theorems: `C42_exclusive`, `C42_reflects`.
* **C43** Reading does not invent values — partial (`PropReader.v`). Refuted for the angles of a track (0 0 0 is invented); proved for all other attributes of all classes.
  Theorems: `C43_nothing_is_invented_partial`, `C43_nothing_is_invented_refuted`.
* **C44** Icon precedence of IconStyle — partial (`PropGeometry.v`). Refuted for a given icon without href; other rows of the table proved.
  Theorems: `C44_given_icon_replaced_refuted`, `C44_precedence_partial`.
* **C45** Objects returned by the reader are well typed — proved (`PropRoundTrip.v`). 
  Theorems: `C45_reader_is_typed`.
* **C46** A document that was read can be written — partial (`PropWriter.v`). Refuted by "1 2 3" as line coordinates and by NaN altitudes; proved for everything read whose coordinate tuples have 2 or 3 non-NaN members, and for typed hand-built objects; writing raises nothing but KMLWriteError, TypeError, DimensionError or ValueError, each only for its cause (C46_exceptions, C46_read_exceptions).
  Theorems: `C46_line_refuted`, `C46_nan_refuted`, `C46_read_then_written_partial`, `C46_typed_written_partial`, `C46_exceptions`, `C46_read_exceptions`.
* **C47** The first of repeated child elements counts — proved (`PropRepeated.v`). 
  Theorems: `C47_first_of_repeated`.
* **C48** What is written conforms to the bundled schema — partial (`PropSchema.v`). Refuted for documents with both features and schemata (written in the wrong order), several features below kml, sub-styles or extended data in another order than the schema's, Data without value, atom:link without href, SimpleData without name, icons of icon styles with refresh settings (always so in verbose mode), track items without time; proved for all other well-typed documents in regular name spaces; only the structure, not the lexical form of the values, is covered; the reading of the XSD files (tools/gen_schema.py, Schema.v) is part of the trusted base.
  Theorems: `C48_structure_valid_partial`, `C48_built_in_names`, `C48_document_order_refuted`, `C48_two_features_refuted`, `C48_style_order_refuted`, `C48_data_order_refuted`, `C48_data_value_refuted`, `C48_link_href_refuted`, `C48_simple_data_name_refuted`, `C48_icon_refresh_refuted`, `C48_verbose_icon_refuted`, `C48_track_time_refuted`.
* **C49** Written values have the form of their schema types — partial (`PropLexical.v`). Proved for all plain values that the texts of booleans, integers, numbers, dates and enumerations have the form of their schema types, and for all values in range (fitting) that the texts are in the ranges of the angle types and have the patterns of colours, identifiers, e-mail addresses, media types and language tags. Refuted for infinite floats and NaN (written inf and nan), integers beyond 32 bits, years before 1000 without a day, offsets with seconds or beyond 14 hours, angles out of range, colours, identifiers and e-mail addresses without their patterns (nothing checks them). Uniqueness of identifiers is not covered; the lexical forms (Lexical.v, Facets.v) and the reading of the XSD files are part of the trusted base.
  Theorems: `C49_values_well_written_partial`, `C49_values_in_range_partial`, `C49_infinity_refuted`, `C49_nan_refuted`, `C49_big_integer_refuted`, `C49_early_year_refuted`, `C49_offset_seconds_refuted`, `C49_wide_offset_refuted`, `C49_angle_refuted`, `C49_colour_refuted`, `C49_identifier_refuted`, `C49_email_refuted`.
* **C50** Schema-valid documents are accepted in strict mode — partial (`PropSchemaRead.v`). Refuted where the library asks for more than the schema: fractional numbers in Lod, other types of SimpleField than those of OGC KML, Schema without id, coordinates that are no numbers, more times than positions in gx:Track; a year of six digits is read as a year and a month; proved for documents that meet these demands, in whatever order the elements come; dates with a zone, years of more than four digits, times in Z or with other fractions than of six digits only as far as arrow accepts them.
  Theorems: `C50_schema_documents_read_partial`, `C50_valid_documents_read_partial`, `C50_lod_refuted`, `C50_field_type_refuted`, `C50_schema_id_refuted`, `C50_coordinates_refuted`, `C50_track_refuted`, `C50_long_year_refuted`.
* **C51** The defaults that verbosity relies on are those of the schema — partial (`PropDefaults.v`). Proved for every attribute with a default in the schema, every object, verbosity and precision, except three attributes where the library's default is not that of the schema: min_lod_pixels of Lod (256 against 0.0) and x, y of HotSpot (0.5 against 1.0); refuted for these (terse output changes the meaning of the document for other readers). Also shown: every scalar attribute with a registered default has a default in the schema, except viewFormat (refuted). Texts of xs:boolean, numbers, enumerations and plain texts are given their meaning by the relation means.
  Theorems: `C51_schema_defaults_partial`, `C51_defaults_declared_partial`, `C51_lod_refuted`, `C51_hot_spot_refuted`, `C51_view_format_refuted`.
* **C52** XML text tells the document — partial (`PropXml.v`). Proved for every typed object whose strings and name spaces consist of XML characters without carriage returns (xml_object), any precision, verbosity and registered prefixes: the text is parsed to exactly the element written; regular readable objects come back with the same data (identical when settled), also those with ns=''. Refuted otherwise: a carriage return comes back as line feed, a control character makes the text unparsable. The text is that of the standard library's ElementTree (CPython 3.11); either library may read it, the parser is a model of XML 1.0 with Namespaces; pretty printing (lxml only) is covered by C31. Further registered prefixes keep this true (C52_prefixes_registered).
  Theorems: `C52_text_tells_the_element`, `C52_text_round_trip_partial`, `C52_unprefixed_round_trip_partial`, `C52_prefixes_registered`, `C52_text_round_trip_refuted`, `C52_text_is_xml_refuted`.
* **C53** Files hold the document — partial (`PropXml.v`). Proved for every KML document as in C52, with or without prefix: writing succeeds, the bytes (of the file or of the member doc.kml) are read by KML.parse to the same data. Refuted: KML.parse does not open the archives that KML.write makes, and a surrogate in a string makes write raise UnicodeEncodeError. UTF-8 is modelled in full; zip archives are modelled as lists of members.
  Theorems: `C53_file_round_trip_partial`, `C53_unprefixed_file_partial`, `C53_utf8`, `C53_file_round_trip_refuted`, `C53_written_refuted`.
* **C54** User-defined classes — partial (`PropClasses.v`). Reading and writing of everything else proved unchanged for every new class, on top of any number of registrations and class definitions; round trip proved for all typed objects of all such libraries. Refuted: an object of a class derived from Placemark inside a folder is written but not read again (the reader looks for the registered tags only); a text registered for ns_ids ("kml", "") in a class whose name space is gx is written in gx and never found.
  Theorems: `C54_reading_unchanged`, `C54_writing_unchanged`, `C54_round_trip_partial`, `C54_derived_object_refuted`, `C54_name_space_refuted`.
* **C55** The spelling of documents — partial (`PropMarkup.v`). Proved for every document of the grammar (syntax trees that keep all choices of the author, XmlMarkup.v): it is read as its tree says, and documents that differ in spelling only are read alike, as texts and as files in UTF-8, with ElementTree without exception and with lxml if comments do not stand between the characters of an element. Refuted for lxml: a comment inside coordinates silently drops the points behind it (Element.text ends there), and from_string refuses texts that declare their encoding. Document types are not modelled; repair of malformed files by lxml (recover=True) neither.
  Theorems: `C55_documents_are_read`, `C55_terms`, `C55_spelling_partial`, `C55_files_partial`, `C55_comment_refuted`, `C55_encoding_refuted`.
* **C56** The XML library does not matter for what is written — partial (`PropLxml.v`). Proved for every typed object whose strings consist of XML characters (carriage returns included) and whose name spaces need no escape (lxml_object), any registered prefixes and numbering, indented or not: lxml's text is well-formed and both libraries build from it the element written but for white space; regular readable objects come back with the same data, as text and as file, and the result is that of ElementTree's text, for every class and mode. Condition for documents in a name space: no object inside has ns=''. Refuted without it (lxml's default name space adopts such an object, ElementTree's text loses it), for control characters (lxml raises ValueError when the element gets them) and for a name space with an ampersand (libxml2 does not escape it).
  Theorems: `C56_lxml_tells_the_element`, `C56_lxml_round_trip_partial`, `C56_lxml_unprefixed_partial`, `C56_libraries_agree_partial`, `C56_lxml_file_round_trip_partial`, `C56_libraries_agree_refuted`, `C56_lxml_written_refuted`, `C56_lxml_name_space_refuted`.
* **C57** Every value of a document is found under the attribute of its name — partial (`PropFound.v`). Proved for all elements of the schema but a stated list that the library has no place for or leaves out (each kind refuted by a witness: ScreenOverlay below kml, tracks in MultiGeometry, ListStyle in Style, Style beside styleUrl in Pair, Tour, Update, extrude of Track, ids of boxes, further names of an author); the parts of the items of a track are dealt with in C24. Conversely an attribute is only set by something of its name (C57_named_sources), and what is written for a settled object is found in the object under these names.
  Theorems: `C57_values_found_partial`, `C57_documents_found_partial`, `C57_written_found_partial`, `C57_named_sources`, `C57_screen_overlay_refuted`, `C57_track_in_multi_geometry_refuted`, `C57_list_style_refuted`, `C57_pair_refuted`, `C57_tour_refuted`, `C57_update_refuted`, `C57_track_extrude_refuted`, `C57_box_id_refuted`, `C57_authors_refuted`.
* **C58** Objects have lists and dictionaries of their own — partial (`PropAlias.v`). Refuted for Coordinates(coords=l), which keeps the list it is given (geometry.py:269); proved for every other list and dictionary parameter and all histories.
  Theorems: `C58_lists_are_values_partial`, `C58_callers_lists`, `C58_own_lists`, `C58_same_object`, `C58_coordinates_refuted`.
* **C59** Numbers have the value their digits say — proved (`PropNumText.v`). About the models of int() and float() (PyInt.v, PyFloat.v) and of the four functions of helpers.py that call them.
  Theorems: `C59_decimal_texts`, `C59_special_texts`, `C59_no_other_float`, `C59_integer_texts`, `C59_no_other_integer`, `C59_underscores`, `C59_other_scripts`, `C59_values_read`.
* **C60** Whatever lenient reading forgives it reports — partial (`PropReport.v`). Refuted for booleans: other spellings (TRUE, 2) are taken silently; proved for everything else, for every registry, in both directions (what is reported is justified, what is dropped is reported). Entry points from_string and KML.parse after XML parsing.
  Theorems: `C60_same_result`, `C60_strict_reports_what_it_raises`, `C60_reported_is_refused`, `C60_forgiven_is_reported_partial`, `C60_forgiven_is_reported_refuted`, `C60_reports_are_justified`, `C60_dropped_is_reported`.
* **C61** Saving after an edit changes only the edited part — proved (`PropEdit.v`). On element trees (before XML text, see C52 for the text). The edit is one that leaves the object in its place: an object that becomes false (an empty geometry) is no longer written, which is an edit of the attribute that holds it.
  Theorems: `C61_one_attribute`, `C61_one_part`, `C61_edited_document`, `C61_one_member_added`.
* **C62** Verbose documents spell out the schema's defaults, terse ones leave them out — partial (`PropVerbose.v`). Refuted for 23 attributes without a default in the library (among them the sides of LatLonBox and LatLonAltBox and range of LookAt; the list is shown to be exact) and for the three of C51 with another default; proved for all others.
  Theorems: `C62_verbose_spells_out_partial`, `C62_terse_leaves_out_partial`, `C62_no_default`, `C62_verbose_refuted`, `C62_terse_refuted`.
* **C63** Damage to one element costs at most what is read from it — proved (`PropDamage.v`). On element trees. Both documents are assumed to be read: when strict or lenient reading raises instead is C04. The times, positions and angles of a track make up one attribute, its items: those before the damaged entry are kept (C63_tracks), the later ones can all change (C24).
  Theorems: `C63_one_element`, `C63_one_registration`, `C63_one_attribute`, `C63_tracks`.
* **C64** What is read is shared with nobody — proved (`PropAliasRead.v`). The memory of C58 with the reader on it. The reader on memory is shown to give the object, or raise the exception, of the reader on trees.
  Theorems: `C64_reading`, `C64_nobody_else`, `C64_lists_are_values`.
* **C65** What is saved alike is alike — proved (`PropDistinct.v`). For objects as in C52 (ElementTree) and C56 (lxml). The settled condition is needed: an empty time stamp is not written (C65_example).
  Theorems: `C65_same_text`.
* **C66** Only documents are read, and only as what they say — proved (`PropWellFormed.v`). The converse of C55. Grammar in XmlMarkup.v, whose terms are those of XML 1.0 (XmlTerms.v, C55_terms); name spaces as a relation in XmlNames.v, which does not use the parser. Outside the model: document type declarations, encodings other than UTF-8, and lxml's repair of files that are not well-formed (KML.parse passes recover=True).
  Theorems: `C66_texts`, `C66_files`, `C66_read`, `C66_one_meaning`.
* **C67** An element means the same wherever it stands — proved (`PropLocal.v`). On element trees; with C66 the element cut out is that of a text. Cutting holds for every registry, pasting for lists of members; a single sub-object is read from the first element with its tag. Whether the object pasted has a truth value is an assumption, since some constructors drop empty members (C33).
  Theorems: `C67_cut`, `C67_pasted`.
* **C68** Documents read one after the other do not influence each other — partial (`PropSession.v`). Refuted: after KML.parse of a file in another name space, with a non-empty dictionary, from_string with the same dictionary finds nothing in a document that alone is read completely. Proved otherwise, with what the dictionary holds afterwards. Entry points after XML parsing (C66).
  Theorems: `C68_reading_in_turn_partial`, `C68_dictionary`, `C68_reading_in_turn_refuted`.
* **C69** What is read is no larger than the document — proved (`PropSize.v`). On element trees. The counts are for the library's registry, in which each tag is looked for by one registration of a class (C63_one_registration); the bound on the depth holds for every registry.
  Theorems: `C69_objects`, `C69_of_one_class`, `C69_depth`.
* **C70** A precision concerns the positions only — proved (`PropPrecision.v`). About the element trees; how close a number with p decimals is to the number in full is C06. The outcome is shown to be the same for objects that were read; an object made by hand can hold an int too large for a float, which has a text but no text with a precision (C70_outcome_example).
  Theorems: `C70_positions_only`, `C70_same_outcome`.
* **C71** Every object is written once — proved (`PropOnce.v`). On element trees. That objects with the truth value false are not written at all is C33; elements are told apart by their local names, and no class has the name of a text (class_tags in PropOnce.v).
  Theorems: `C71_written_once`, `C71_of_one_name`, `C71_no_object_twice`, `C71_no_object_missing`, `C71_depth`.
* **C72** An object is written the same wherever it stands — proved (`PropPlace.v`). On element trees. The same for the reader is C67. That the elements standing for objects are as many as the objects is C71.
  Theorems: `C72_as_alone`, `C72_nothing_else`, `C72_two_documents`, `C72_failure_spreads`.
* **C73** The order in which attributes are set does not matter — proved (`PropReorder.v`). On element trees. The classes of C45 (typed) fix an order of the attributes; this theorem shows that nothing written depends on it. Equality of dictionaries is that of C26; repr shows the unknown keyword arguments in their order and is not spoken of here.
  Theorems: `C73_written`, `C73_truth_and_geometry`, `C73_keywords`.
* **C74** Documents put together — proved (`PropMerge.v`). On element trees. Reading sorts the members by class (C15), so the statement about reading is one for each class. Attributes that hold one value take the first (C47).
  Theorems: `C74_written`, `C74_read`, `C74_counted`.
* **C75** Verbosity only adds — proved (`PropFewer.v`). On element trees. What is left out are the defaults (C12, C62). The registered default of Track.angles, a single angle where a sequence is written, could not be written, but the attribute is never None (track_held).
  Theorems: `C75_only_adds`, `C75_verbose_writes`.
* **C76** Searches can be narrowed and divided — proved (`PropNarrow.v`). The search of C19 with enough stack (Python's recursion limit is not modelled). Conditions that raise are excluded: the exception ends the search.
  Theorems: `C76_conditions`, `C76_types`, `C76_order`, `C76_parts`.
* **C77** Saving repairs a document — proved (`PropRepair.v`). Combines C46, C01 and C60; the conditions are those of C46 (fine) and C01 (rt_ok), each with its refutation there.
  Theorems: `C77_repaired`.
* **C78** Adding to a document keeps its references — proved (`PropAdd.v`). The search of C19 with enough stack. The condition on ids already in the list is needed: C78_takeover shows a style added to the document's own list taking over an id that so far belonged to a style of a feature.
  Theorems: `C78_list_grows`, `C78_features`, `C78_styles`, `C78_added`, `C78_takeover`.
* **C79** Saving never redirects a reference — proved (`PropKeep.v`). Element trees and full precision, as in C01; C79_every_verbosity for all verbosities, with the relation of C12. The conditions are needed: C79_lost (a style without contents is not written, so references to it are lost) and C79_one_id_twice (with one id for a style map and a style, grouping redirects the reference).
  Theorems: `C79_not_invented`, `C79_nothing_new`, `C79_not_redirected`, `C79_every_verbosity`, `C79_settled`, `C79_lost`, `C79_one_id_twice`.
<!-- end -->
