(** * The inline documents of the tests of the JSON reader (generated by tools/gen_writer_tests.py).

    For each test of /repo/spdx/v2/v2_*/json/json_test.go with an inline document, the
    text read and the document expected. *)
From Verif Require Import GoStr Types Json.
Local Open Scope string_scope.

(** /repo/spdx/v2/v2_2/json/json_test.go 91: Test_ShorthandFields *)
Definition text_ShorthandFields_22 : string := "{
		""spdxVersion"": ""SPDX-2.2"",
		""dataLicense"": ""CC0-1.0"",
		""SPDXID"": ""SPDXRef-DOCUMENT"",
		""name"": ""SPDX-Tools-v2.0"",
		""documentDescribes"": [
			""SPDXRef-Container""
		],
		""packages"": [
			{
				""name"": ""Container"",
				""SPDXID"": ""SPDXRef-Container""
			},
			{
				""name"": ""Package-1"",
				""SPDXID"": ""SPDXRef-Package-1"",
				""versionInfo"": ""1.1.1"",
				""hasFiles"": [
					""SPDXRef-File-1"",
					""SPDXRef-File-2""
				]
			},
			{
				""name"": ""Package-2"",
				""SPDXID"": ""SPDXRef-Package-2"",
				""versionInfo"": ""2.2.2""
			}
		],
		""files"": [
			{
				""fileName"": ""./f1"",
				""SPDXID"": ""SPDXRef-File-1""
			},
			{
				""fileName"": ""./f2"",
				""SPDXID"": ""SPDXRef-File-2""
			}
		]
	}".
Definition want_ShorthandFields_22 : Document :=
 (set_d_Relationships [(set_r_Relationship ("DESCRIBES")
 (set_r_RefB (MkDEID "" "Container" "")
 (set_r_RefA (MkDEID "" "DOCUMENT" "")
 zero_Relationship))); (set_r_Relationship ("CONTAINS")
 (set_r_RefB (MkDEID "" "File-1" "")
 (set_r_RefA (MkDEID "" "Package-1" "")
 zero_Relationship))); (set_r_Relationship ("CONTAINS")
 (set_r_RefB (MkDEID "" "File-2" "")
 (set_r_RefA (MkDEID "" "Package-1" "")
 zero_Relationship)))]
 (set_d_Files [(set_f_SPDXIdentifier ("File-1")
 (set_f_FileName ("./f1")
 zero_FileOf)); (set_f_SPDXIdentifier ("File-2")
 (set_f_FileName ("./f2")
 zero_FileOf))]
 (set_d_Packages [(set_p_FilesAnalyzed true
 (set_p_SPDXIdentifier ("Container")
 (set_p_PackageName ("Container")
 zero_PackageOf))); (set_p_FilesAnalyzed true
 (set_p_Version ("1.1.1")
 (set_p_SPDXIdentifier ("Package-1")
 (set_p_PackageName ("Package-1")
 zero_PackageOf)))); (set_p_FilesAnalyzed true
 (set_p_Version ("2.2.2")
 (set_p_SPDXIdentifier ("Package-2")
 (set_p_PackageName ("Package-2")
 zero_PackageOf))))]
 (set_d_DocumentName ("SPDX-Tools-v2.0")
 (set_d_SPDXIdentifier ("DOCUMENT")
 (set_d_DataLicense ("CC0-1.0")
 (set_d_SPDXVersion ("SPDX-2.2")
 zero_DocumentOf))))))).
(** /repo/spdx/v2/v2_2/json/json_test.go 203: Test_ShorthandFieldsNoDuplicates *)
Definition text_ShorthandFieldsNoDuplicates_22 : string := "{
		""spdxVersion"": ""SPDX-2.2"",
		""dataLicense"": ""CC0-1.0"",
		""SPDXID"": ""SPDXRef-DOCUMENT"",
		""name"": ""SPDX-Tools-v2.0"",
		""documentDescribes"": [
			""SPDXRef-Container""
		],
		""packages"": [
			{
				""name"": ""Container"",
				""SPDXID"": ""SPDXRef-Container""
			},
			{
				""name"": ""Package-1"",
				""SPDXID"": ""SPDXRef-Package-1"",
				""versionInfo"": ""1.1.1"",
				""hasFiles"": [
					""SPDXRef-File-1"",
					""SPDXRef-File-2""
				]
			},
			{
				""name"": ""Package-2"",
				""SPDXID"": ""SPDXRef-Package-2"",
				""versionInfo"": ""2.2.2""
			}
		],
		""files"": [
			{
				""fileName"": ""./f1"",
				""SPDXID"": ""SPDXRef-File-1""
			},
			{
				""fileName"": ""./f2"",
				""SPDXID"": ""SPDXRef-File-2""
			}
		],
		""relationships"": [
		  {
		   ""spdxElementId"": ""SPDXRef-Package-1"",
		   ""relationshipType"": ""CONTAINS"",
		   ""relatedSpdxElement"": ""SPDXRef-File-1""
		  },
		  {
		   ""spdxElementId"": ""SPDXRef-File-2"",
		   ""relationshipType"": ""CONTAINED_BY"",
		   ""relatedSpdxElement"": ""SPDXRef-Package-1""
		  }
		]
	}".
Definition want_ShorthandFieldsNoDuplicates_22 : Document :=
 (set_d_Relationships [(set_r_Relationship ("DESCRIBES")
 (set_r_RefB (MkDEID "" "Container" "")
 (set_r_RefA (MkDEID "" "DOCUMENT" "")
 zero_Relationship))); (set_r_Relationship ("CONTAINS")
 (set_r_RefB (MkDEID "" "File-1" "")
 (set_r_RefA (MkDEID "" "Package-1" "")
 zero_Relationship))); (set_r_Relationship ("CONTAINED_BY")
 (set_r_RefB (MkDEID "" "Package-1" "")
 (set_r_RefA (MkDEID "" "File-2" "")
 zero_Relationship)))]
 (set_d_Files [(set_f_SPDXIdentifier ("File-1")
 (set_f_FileName ("./f1")
 zero_FileOf)); (set_f_SPDXIdentifier ("File-2")
 (set_f_FileName ("./f2")
 zero_FileOf))]
 (set_d_Packages [(set_p_FilesAnalyzed true
 (set_p_SPDXIdentifier ("Container")
 (set_p_PackageName ("Container")
 zero_PackageOf))); (set_p_FilesAnalyzed true
 (set_p_Version ("1.1.1")
 (set_p_SPDXIdentifier ("Package-1")
 (set_p_PackageName ("Package-1")
 zero_PackageOf)))); (set_p_FilesAnalyzed true
 (set_p_Version ("2.2.2")
 (set_p_SPDXIdentifier ("Package-2")
 (set_p_PackageName ("Package-2")
 zero_PackageOf))))]
 (set_d_DocumentName ("SPDX-Tools-v2.0")
 (set_d_SPDXIdentifier ("DOCUMENT")
 (set_d_DataLicense ("CC0-1.0")
 (set_d_SPDXVersion ("SPDX-2.2")
 zero_DocumentOf))))))).
(** /repo/spdx/v2/v2_2/json/json_test.go 326: Test_JsonEnums *)
Definition text_JsonEnums_22 : string := "{
        ""spdxVersion"": ""SPDX-2.2"",
        ""dataLicense"": ""CC0-1.0"",
        ""SPDXID"": ""SPDXRef-DOCUMENT"",
        ""name"": ""SPDX-Tools-v2.0"",
        ""documentDescribes"": [
            ""SPDXRef-Container""
        ],
        ""packages"": [
            {
                ""name"": ""Container"",
                ""SPDXID"": ""SPDXRef-Container""
            },
            {
                ""name"": ""Package-1"",
                ""SPDXID"": ""SPDXRef-Package-1"",
                ""versionInfo"": ""1.1.1"",
                ""externalRefs"": [{
                    ""referenceCategory"": ""PACKAGE_MANAGER"",
                    ""referenceLocator"": ""pkg:somepkg/ns/name1"",
                    ""referenceType"": ""purl""
                }]
            },
            {
                ""name"": ""Package-2"",
                ""SPDXID"": ""SPDXRef-Package-2"",
                ""versionInfo"": ""2.2.2"",
                ""externalRefs"": [{
                    ""referenceCategory"": ""PACKAGE-MANAGER"",
                    ""referenceLocator"": ""pkg:somepkg/ns/name2"",
                    ""referenceType"": ""purl""
                }]
            },
			{
                ""name"": ""Package-3"",
                ""SPDXID"": ""SPDXRef-Package-3"",
                ""versionInfo"": ""3.3.3"",
                ""externalRefs"": [{
                    ""referenceCategory"": ""PERSISTENT_ID"",
                    ""referenceLocator"": ""gitoid:blob:sha1:261eeb9e9f8b2b4b0d119366dda99c6fd7d35c64"",
                    ""referenceType"": ""gitoid""
                }]
            },
			{
                ""name"": ""Package-4"",
                ""SPDXID"": ""SPDXRef-Package-4"",
                ""versionInfo"": ""4.4.4"",
                ""externalRefs"": [{
                    ""referenceCategory"": ""PERSISTENT-ID"",
                    ""referenceLocator"": ""gitoid:blob:sha1:261eeb9e9f8b2b4b0d119366dda99c6fd7d35c64"",
                    ""referenceType"": ""gitoid""
                }]
            }
        ]
    }".
Definition want_JsonEnums_22 : Document :=
 (set_d_Relationships [(set_r_Relationship ("DESCRIBES")
 (set_r_RefB (MkDEID "" "Container" "")
 (set_r_RefA (MkDEID "" "DOCUMENT" "")
 zero_Relationship)))]
 (set_d_Packages [(set_p_FilesAnalyzed true
 (set_p_SPDXIdentifier ("Container")
 (set_p_PackageName ("Container")
 zero_PackageOf))); (set_p_FilesAnalyzed true
 (set_p_ExternalReferences [(set_er_Locator ("pkg:somepkg/ns/name1")
 (set_er_RefType ("purl")
 (set_er_Category ("PACKAGE-MANAGER")
 zero_ExternalRef)))]
 (set_p_Version ("1.1.1")
 (set_p_SPDXIdentifier ("Package-1")
 (set_p_PackageName ("Package-1")
 zero_PackageOf))))); (set_p_FilesAnalyzed true
 (set_p_ExternalReferences [(set_er_Locator ("pkg:somepkg/ns/name2")
 (set_er_RefType ("purl")
 (set_er_Category ("PACKAGE-MANAGER")
 zero_ExternalRef)))]
 (set_p_Version ("2.2.2")
 (set_p_SPDXIdentifier ("Package-2")
 (set_p_PackageName ("Package-2")
 zero_PackageOf))))); (set_p_FilesAnalyzed true
 (set_p_ExternalReferences [(set_er_Locator ("gitoid:blob:sha1:261eeb9e9f8b2b4b0d119366dda99c6fd7d35c64")
 (set_er_RefType ("gitoid")
 (set_er_Category ("PERSISTENT-ID")
 zero_ExternalRef)))]
 (set_p_Version ("3.3.3")
 (set_p_SPDXIdentifier ("Package-3")
 (set_p_PackageName ("Package-3")
 zero_PackageOf))))); (set_p_FilesAnalyzed true
 (set_p_ExternalReferences [(set_er_Locator ("gitoid:blob:sha1:261eeb9e9f8b2b4b0d119366dda99c6fd7d35c64")
 (set_er_RefType ("gitoid")
 (set_er_Category ("PERSISTENT-ID")
 zero_ExternalRef)))]
 (set_p_Version ("4.4.4")
 (set_p_SPDXIdentifier ("Package-4")
 (set_p_PackageName ("Package-4")
 zero_PackageOf)))))]
 (set_d_DocumentName ("SPDX-Tools-v2.0")
 (set_d_SPDXIdentifier ("DOCUMENT")
 (set_d_DataLicense ("CC0-1.0")
 (set_d_SPDXVersion ("SPDX-2.2")
 zero_DocumentOf)))))).
(** /repo/spdx/v2/v2_3/json/json_test.go 110: Test_ShorthandFields *)
Definition text_ShorthandFields_23 : string := "{
		""spdxVersion"": ""SPDX-2.3"",
		""dataLicense"": ""CC0-1.0"",
		""SPDXID"": ""SPDXRef-DOCUMENT"",
		""name"": ""SPDX-Tools-v2.0"",
		""documentDescribes"": [
			""SPDXRef-Container""
		],
		""packages"": [
			{
				""name"": ""Container"",
				""SPDXID"": ""SPDXRef-Container""
			},
			{
				""name"": ""Package-1"",
				""SPDXID"": ""SPDXRef-Package-1"",
				""versionInfo"": ""1.1.1"",
				""hasFiles"": [
					""SPDXRef-File-1"",
					""SPDXRef-File-2""
				]
			},
			{
				""name"": ""Package-2"",
				""SPDXID"": ""SPDXRef-Package-2"",
				""versionInfo"": ""2.2.2""
			}
		],
		""files"": [
			{
				""fileName"": ""./f1"",
				""SPDXID"": ""SPDXRef-File-1""
			},
			{
				""fileName"": ""./f2"",
				""SPDXID"": ""SPDXRef-File-2""
			}
		]
	}".
Definition want_ShorthandFields_23 : Document :=
 (set_d_Relationships [(set_r_Relationship ("DESCRIBES")
 (set_r_RefB (MkDEID "" "Container" "")
 (set_r_RefA (MkDEID "" "DOCUMENT" "")
 zero_Relationship))); (set_r_Relationship ("CONTAINS")
 (set_r_RefB (MkDEID "" "File-1" "")
 (set_r_RefA (MkDEID "" "Package-1" "")
 zero_Relationship))); (set_r_Relationship ("CONTAINS")
 (set_r_RefB (MkDEID "" "File-2" "")
 (set_r_RefA (MkDEID "" "Package-1" "")
 zero_Relationship)))]
 (set_d_Files [(set_f_SPDXIdentifier ("File-1")
 (set_f_FileName ("./f1")
 zero_FileOf)); (set_f_SPDXIdentifier ("File-2")
 (set_f_FileName ("./f2")
 zero_FileOf))]
 (set_d_Packages [(set_p_FilesAnalyzed true
 (set_p_SPDXIdentifier ("Container")
 (set_p_PackageName ("Container")
 zero_PackageOf))); (set_p_FilesAnalyzed true
 (set_p_Version ("1.1.1")
 (set_p_SPDXIdentifier ("Package-1")
 (set_p_PackageName ("Package-1")
 zero_PackageOf)))); (set_p_FilesAnalyzed true
 (set_p_Version ("2.2.2")
 (set_p_SPDXIdentifier ("Package-2")
 (set_p_PackageName ("Package-2")
 zero_PackageOf))))]
 (set_d_DocumentName ("SPDX-Tools-v2.0")
 (set_d_SPDXIdentifier ("DOCUMENT")
 (set_d_DataLicense ("CC0-1.0")
 (set_d_SPDXVersion ("SPDX-2.3")
 zero_DocumentOf))))))).
(** /repo/spdx/v2/v2_3/json/json_test.go 221: Test_ShorthandFieldsNoDuplicates *)
Definition text_ShorthandFieldsNoDuplicates_23 : string := "{
		""spdxVersion"": ""SPDX-2.3"",
		""dataLicense"": ""CC0-1.0"",
		""SPDXID"": ""SPDXRef-DOCUMENT"",
		""name"": ""SPDX-Tools-v2.0"",
		""documentDescribes"": [
			""SPDXRef-Container""
		],
		""packages"": [
			{
				""name"": ""Container"",
				""SPDXID"": ""SPDXRef-Container""
			},
			{
				""name"": ""Package-1"",
				""SPDXID"": ""SPDXRef-Package-1"",
				""versionInfo"": ""1.1.1"",
				""hasFiles"": [
					""SPDXRef-File-1"",
					""SPDXRef-File-2""
				]
			},
			{
				""name"": ""Package-2"",
				""SPDXID"": ""SPDXRef-Package-2"",
				""versionInfo"": ""2.2.2""
			}
		],
		""files"": [
			{
				""fileName"": ""./f1"",
				""SPDXID"": ""SPDXRef-File-1""
			},
			{
				""fileName"": ""./f2"",
				""SPDXID"": ""SPDXRef-File-2""
			}
		],
		""relationships"": [
		  {
		   ""spdxElementId"": ""SPDXRef-Package-1"",
		   ""relationshipType"": ""CONTAINS"",
		   ""relatedSpdxElement"": ""SPDXRef-File-1""
		  },
		  {
		   ""spdxElementId"": ""SPDXRef-File-2"",
		   ""relationshipType"": ""CONTAINED_BY"",
		   ""relatedSpdxElement"": ""SPDXRef-Package-1""
		  }
		]
	}".
Definition want_ShorthandFieldsNoDuplicates_23 : Document :=
 (set_d_Relationships [(set_r_Relationship ("DESCRIBES")
 (set_r_RefB (MkDEID "" "Container" "")
 (set_r_RefA (MkDEID "" "DOCUMENT" "")
 zero_Relationship))); (set_r_Relationship ("CONTAINS")
 (set_r_RefB (MkDEID "" "File-1" "")
 (set_r_RefA (MkDEID "" "Package-1" "")
 zero_Relationship))); (set_r_Relationship ("CONTAINED_BY")
 (set_r_RefB (MkDEID "" "Package-1" "")
 (set_r_RefA (MkDEID "" "File-2" "")
 zero_Relationship)))]
 (set_d_Files [(set_f_SPDXIdentifier ("File-1")
 (set_f_FileName ("./f1")
 zero_FileOf)); (set_f_SPDXIdentifier ("File-2")
 (set_f_FileName ("./f2")
 zero_FileOf))]
 (set_d_Packages [(set_p_FilesAnalyzed true
 (set_p_SPDXIdentifier ("Container")
 (set_p_PackageName ("Container")
 zero_PackageOf))); (set_p_FilesAnalyzed true
 (set_p_Version ("1.1.1")
 (set_p_SPDXIdentifier ("Package-1")
 (set_p_PackageName ("Package-1")
 zero_PackageOf)))); (set_p_FilesAnalyzed true
 (set_p_Version ("2.2.2")
 (set_p_SPDXIdentifier ("Package-2")
 (set_p_PackageName ("Package-2")
 zero_PackageOf))))]
 (set_d_DocumentName ("SPDX-Tools-v2.0")
 (set_d_SPDXIdentifier ("DOCUMENT")
 (set_d_DataLicense ("CC0-1.0")
 (set_d_SPDXVersion ("SPDX-2.3")
 zero_DocumentOf))))))).
(** /repo/spdx/v2/v2_3/json/json_test.go 344: Test_JsonEnums *)
Definition text_JsonEnums_23 : string := "{
        ""spdxVersion"": ""SPDX-2.3"",
        ""dataLicense"": ""CC0-1.0"",
        ""SPDXID"": ""SPDXRef-DOCUMENT"",
        ""name"": ""SPDX-Tools-v2.0"",
        ""documentDescribes"": [
            ""SPDXRef-Container""
        ],
        ""packages"": [
            {
                ""name"": ""Container"",
                ""SPDXID"": ""SPDXRef-Container""
            },
            {
                ""name"": ""Package-1"",
                ""SPDXID"": ""SPDXRef-Package-1"",
                ""versionInfo"": ""1.1.1"",
                ""externalRefs"": [{
                    ""referenceCategory"": ""PACKAGE_MANAGER"",
                    ""referenceLocator"": ""pkg:somepkg/ns/name1"",
                    ""referenceType"": ""purl""
                }]
            },
            {
                ""name"": ""Package-2"",
                ""SPDXID"": ""SPDXRef-Package-2"",
                ""versionInfo"": ""2.2.2"",
                ""externalRefs"": [{
                    ""referenceCategory"": ""PACKAGE-MANAGER"",
                    ""referenceLocator"": ""pkg:somepkg/ns/name2"",
                    ""referenceType"": ""purl""
                }]
            },
            {
                ""name"": ""Package-3"",
                ""SPDXID"": ""SPDXRef-Package-3"",
                ""versionInfo"": ""3.3.3"",
                ""externalRefs"": [{
                    ""referenceCategory"": ""PERSISTENT_ID"",
                    ""referenceLocator"": ""gitoid:blob:sha1:261eeb9e9f8b2b4b0d119366dda99c6fd7d35c64"",
                    ""referenceType"": ""gitoid""
                }]
            },
            {
                ""name"": ""Package-4"",
                ""SPDXID"": ""SPDXRef-Package-4"",
                ""versionInfo"": ""4.4.4"",
                ""externalRefs"": [{
                    ""referenceCategory"": ""PERSISTENT-ID"",
                    ""referenceLocator"": ""gitoid:blob:sha1:261eeb9e9f8b2b4b0d119366dda99c6fd7d35c64"",
                    ""referenceType"": ""gitoid""
                }]
            }
        ]
    }".
Definition want_JsonEnums_23 : Document :=
 (set_d_Relationships [(set_r_Relationship ("DESCRIBES")
 (set_r_RefB (MkDEID "" "Container" "")
 (set_r_RefA (MkDEID "" "DOCUMENT" "")
 zero_Relationship)))]
 (set_d_Packages [(set_p_FilesAnalyzed true
 (set_p_SPDXIdentifier ("Container")
 (set_p_PackageName ("Container")
 zero_PackageOf))); (set_p_FilesAnalyzed true
 (set_p_ExternalReferences [(set_er_Locator ("pkg:somepkg/ns/name1")
 (set_er_RefType ("purl")
 (set_er_Category ("PACKAGE-MANAGER")
 zero_ExternalRef)))]
 (set_p_Version ("1.1.1")
 (set_p_SPDXIdentifier ("Package-1")
 (set_p_PackageName ("Package-1")
 zero_PackageOf))))); (set_p_FilesAnalyzed true
 (set_p_ExternalReferences [(set_er_Locator ("pkg:somepkg/ns/name2")
 (set_er_RefType ("purl")
 (set_er_Category ("PACKAGE-MANAGER")
 zero_ExternalRef)))]
 (set_p_Version ("2.2.2")
 (set_p_SPDXIdentifier ("Package-2")
 (set_p_PackageName ("Package-2")
 zero_PackageOf))))); (set_p_FilesAnalyzed true
 (set_p_ExternalReferences [(set_er_Locator ("gitoid:blob:sha1:261eeb9e9f8b2b4b0d119366dda99c6fd7d35c64")
 (set_er_RefType ("gitoid")
 (set_er_Category ("PERSISTENT-ID")
 zero_ExternalRef)))]
 (set_p_Version ("3.3.3")
 (set_p_SPDXIdentifier ("Package-3")
 (set_p_PackageName ("Package-3")
 zero_PackageOf))))); (set_p_FilesAnalyzed true
 (set_p_ExternalReferences [(set_er_Locator ("gitoid:blob:sha1:261eeb9e9f8b2b4b0d119366dda99c6fd7d35c64")
 (set_er_RefType ("gitoid")
 (set_er_Category ("PERSISTENT-ID")
 zero_ExternalRef)))]
 (set_p_Version ("4.4.4")
 (set_p_SPDXIdentifier ("Package-4")
 (set_p_PackageName ("Package-4")
 zero_PackageOf)))))]
 (set_d_DocumentName ("SPDX-Tools-v2.0")
 (set_d_SPDXIdentifier ("DOCUMENT")
 (set_d_DataLicense ("CC0-1.0")
 (set_d_SPDXVersion ("SPDX-2.3")
 zero_DocumentOf)))))).
