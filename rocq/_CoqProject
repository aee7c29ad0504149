-Q theories Verif
theories/Ustr.v
theories/UstrProofs.v
theories/Res.v
theories/PyInt.v
theories/PyFloat.v
theories/PyNumProofs.v
theories/PyFmtProofs.v
theories/PyDate.v
theories/PyDateProofs.v
theories/Elem.v
theories/Value.v
theories/Geom.v
theories/Codec.v
theories/Tables.v
theories/Spec.v
theories/EmitProofs.v
theories/CodecProofs.v
theories/CoordSpec.v
theories/NumberProofs.v
theories/PropNumbers.v
theories/NumSpec.v
theories/NearProofs.v
theories/NumTextProofs.v
theories/PropNumText.v
theories/DateForms.v
theories/DateThms.v
theories/PropDates.v
theories/ReadProofs.v
theories/ItemProofs.v
theories/RoundTrip.v
theories/Settled.v
theories/SettledProofs.v
theories/NsProofs.v
theories/ReaderTyped.v
theories/Same.v
theories/SameProofs.v
theories/Generations.v
theories/FastkmlOk.v
theories/Samples.v
theories/SampleProofs.v
theories/PropRoundTrip.v
theories/Api.v
theories/ValueProofs.v
theories/CtorProofs.v
theories/PropValues.v
theories/Agree.v
theories/AgreeProofs.v
theories/StrictProofs.v
theories/AbsentProofs.v
theories/Calm.v
theories/TotalProofs.v
theories/Erase.v
theories/EraseProofs.v
theories/NsChange.v
theories/NsChangeProofs.v
theories/HarmlessProofs.v
theories/RaiseProofs.v
theories/Layout.v
theories/LayoutProofs.v
theories/PropReader.v
theories/Report.v
theories/ReportSpec.v
theories/ReportProofs.v
theories/PropReport.v
theories/EditSpec.v
theories/EditProofs.v
theories/PropEdit.v
theories/DamageSpec.v
theories/DamageProofs.v
theories/DamageTracks.v
theories/PropDamage.v
theories/LocalSpec.v
theories/LocalProofs.v
theories/PropLocal.v
theories/Session.v
theories/PropSession.v
theories/PropNamespaces.v
theories/Outcome.v
theories/PropLists.v
theories/PropTracks.v
theories/Effective.v
theories/VerbosityProofs.v
theories/PropVerbosity.v
theories/WriteProofs.v
theories/WriteRaiseProofs.v
theories/CoverProofs.v
theories/PropWriter.v
theories/Extend.v
theories/ExtendProofs.v
theories/ExtendWriteProofs.v
theories/ExtendReadProofs.v
theories/NewClass.v
theories/NewClassProofs.v
theories/PropRegistry.v
theories/PropClasses.v
theories/Create.v
theories/GeoSpec.v
theories/CreateProofs.v
theories/GeoXmlProofs.v
theories/PropGeometry.v
theories/Find.v
theories/FindSpec.v
theories/FindProofs.v
theories/PropFind.v
theories/Validate.v
theories/PropValidate.v
theories/Append.v
theories/PropAppend.v
theories/Alias.v
theories/AliasSpec.v
theories/AliasProofs.v
theories/AliasLoad.v
theories/PropAlias.v
theories/AliasRead.v
theories/AliasReadProofs.v
theories/AliasFrame.v
theories/PropAliasRead.v
theories/Equal.v
theories/EqualSpec.v
theories/EqualProofs.v
theories/PropEqual.v
theories/Reprs.v
theories/Repr.v
theories/ReprSpec.v
theories/ReprProofs.v
theories/PropRepr.v
theories/Unprefixed.v
theories/UnprefixedProofs.v
theories/PropUnprefixed.v
theories/Schema.v
theories/SchemaTables.v
theories/SchemaSpec.v
theories/SlotProofs.v
theories/SchemaProofs.v
theories/SchemaCheck.v
theories/PropSchema.v
theories/PropRepeated.v
theories/Lexical.v
theories/ValuesWritten.v
theories/LexicalProofs.v
theories/Facets.v
theories/FacetProofs.v
theories/PropLexical.v
theories/SchemaRead.v
theories/SchemaReadProofs.v
theories/PropSchemaRead.v
theories/Found.v
theories/FoundProofs.v
theories/PropFound.v
theories/SchemaDefaults.v
theories/PropDefaults.v
theories/PropVerbose.v
theories/Xml.v
theories/XmlSpec.v
theories/XmlDoc.v
theories/XmlMarkup.v
theories/XmlProofs.v
theories/XmlNsProofs.v
theories/XmlDocProofs.v
theories/XmlWriteProofs.v
theories/PropXml.v
theories/XmlMarkupProofs.v
theories/XmlTerms.v
theories/XmlTermsProofs.v
theories/PropMarkup.v
theories/Lxml.v
theories/LxmlSpec.v
theories/LxmlWriteProofs.v
theories/LxmlProofs.v
theories/LxmlTextProofs.v
theories/PropLxml.v
theories/PropDistinct.v
theories/XmlSound.v
theories/XmlNames.v
theories/XmlNamesProofs.v
theories/PropWellFormed.v
theories/SizeSpec.v
theories/SizeProofs.v
theories/PropSize.v
theories/PrecisionSpec.v
theories/PrecisionProofs.v
theories/PropPrecision.v
theories/OnceSpec.v
theories/OnceProofs.v
theories/PropOnce.v
theories/PlaceSpec.v
theories/PlaceProofs.v
theories/PropPlace.v
theories/ReorderSpec.v
theories/ReorderProofs.v
theories/PropReorder.v
theories/MergeSpec.v
theories/MergeProofs.v
theories/PropMerge.v
theories/FewerSpec.v
theories/FewerProofs.v
theories/PropFewer.v
theories/NarrowProofs.v
theories/PropNarrow.v
theories/PropRepair.v
theories/DepthProofs.v
theories/AddProofs.v
theories/PropAdd.v
theories/KeepProofs.v
theories/KeepVerbosity.v
theories/PropKeep.v
