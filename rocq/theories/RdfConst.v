(** * RDF vocabulary (generated from /repo/spdx/v2/v2_3/rdf/reader/constants.go).
    v2_2/rdf/reader/constants.go is the same minus the four package predicates
    primaryPackagePurpose, releaseDate, builtDate and validUntilDate. *)
From Verif Require Import GoStr.

(** constants.go 8-13; NS_RDF is gordf's constant parser.RDFNS (external) *)
Definition NS_SPDX : string := "http://spdx.org/rdf/terms#".
Definition NS_RDFS : string := "http://www.w3.org/2000/01/rdf-schema#".
Definition NS_RDF : string := "http://www.w3.org/1999/02/22-rdf-syntax-ns#".
Definition NS_PTR : string := "http://www.w3.org/2009/pointers#".
Definition NS_DOAP : string := "http://usefulinc.com/ns/doap#".

(** constants.go 15-143: the names the reader uses *)
Definition SPDX_SPEC_VERSION : string := NS_SPDX ++ "specVersion".
Definition SPDX_DATA_LICENSE : string := NS_SPDX ++ "dataLicense".
Definition SPDX_NAME : string := NS_SPDX ++ "name".
Definition SPDX_EXTERNAL_DOCUMENT_REF : string := NS_SPDX ++ "externalDocumentRef".
Definition SPDX_LICENSE_LIST_VERSION : string := NS_SPDX ++ "licenseListVersion".
Definition SPDX_CREATOR : string := NS_SPDX ++ "creator".
Definition SPDX_CREATED : string := NS_SPDX ++ "created".
Definition SPDX_REVIEWED : string := NS_SPDX ++ "reviewed".
Definition SPDX_DESCRIBES_PACKAGE : string := NS_SPDX ++ "describesPackage".
Definition SPDX_HAS_EXTRACTED_LICENSING_INFO : string := NS_SPDX ++ "hasExtractedLicensingInfo".
Definition SPDX_RELATIONSHIP : string := NS_SPDX ++ "relationship".
Definition SPDX_ANNOTATION : string := NS_SPDX ++ "annotation".
Definition SPDX_CREATION_INFO : string := NS_SPDX ++ "creationInfo".
Definition SPDX_EXTERNAL_DOCUMENT_ID : string := NS_SPDX ++ "externalDocumentId".
Definition SPDX_SPDX_DOCUMENT : string := NS_SPDX ++ "spdxDocument".
Definition SPDX_SPDX_DOCUMENT_CAPITALIZED : string := NS_SPDX ++ "SpdxDocument".
Definition SPDX_CHECKSUM : string := NS_SPDX ++ "checksum".
Definition SPDX_ANNOTATION_TYPE : string := NS_SPDX ++ "annotationType".
Definition SPDX_ANNOTATION_TYPE_OTHER : string := NS_SPDX ++ "annotationType_other".
Definition SPDX_ANNOTATION_TYPE_REVIEW : string := NS_SPDX ++ "annotationType_review".
Definition SPDX_LICENSE_INFO_IN_FILE : string := NS_SPDX ++ "licenseInfoInFile".
Definition SPDX_LICENSE_CONCLUDED : string := NS_SPDX ++ "licenseConcluded".
Definition SPDX_LICENSE_COMMENTS : string := NS_SPDX ++ "licenseComments".
Definition SPDX_COPYRIGHT_TEXT : string := NS_SPDX ++ "copyrightText".
Definition SPDX_ARTIFACT_OF : string := NS_SPDX ++ "artifactOf".
Definition SPDX_NOTICE_TEXT : string := NS_SPDX ++ "noticeText".
Definition SPDX_FILE_CONTRIBUTOR : string := NS_SPDX ++ "fileContributor".
Definition SPDX_FILE_DEPENDENCY : string := NS_SPDX ++ "fileDependency".
Definition SPDX_FILE_TYPE : string := NS_SPDX ++ "fileType".
Definition SPDX_FILE_NAME : string := NS_SPDX ++ "fileName".
Definition SPDX_EXTRACTED_TEXT : string := NS_SPDX ++ "extractedText".
Definition SPDX_LICENSE_ID : string := NS_SPDX ++ "licenseId".
Definition SPDX_FILE : string := NS_SPDX ++ "File".
Definition SPDX_PACKAGE : string := NS_SPDX ++ "Package".
Definition SPDX_SPDX_ELEMENT : string := NS_SPDX ++ "SpdxElement".
Definition SPDX_VERSION_INFO : string := NS_SPDX ++ "versionInfo".
Definition SPDX_PACKAGE_FILE_NAME : string := NS_SPDX ++ "packageFileName".
Definition SPDX_SUPPLIER : string := NS_SPDX ++ "supplier".
Definition SPDX_ORIGINATOR : string := NS_SPDX ++ "originator".
Definition SPDX_DOWNLOAD_LOCATION : string := NS_SPDX ++ "downloadLocation".
Definition SPDX_FILES_ANALYZED : string := NS_SPDX ++ "filesAnalyzed".
Definition SPDX_PACKAGE_VERIFICATION_CODE : string := NS_SPDX ++ "packageVerificationCode".
Definition SPDX_SOURCE_INFO : string := NS_SPDX ++ "sourceInfo".
Definition SPDX_LICENSE_INFO_FROM_FILES : string := NS_SPDX ++ "licenseInfoFromFiles".
Definition SPDX_LICENSE_DECLARED : string := NS_SPDX ++ "licenseDeclared".
Definition SPDX_SUMMARY : string := NS_SPDX ++ "summary".
Definition SPDX_DESCRIPTION : string := NS_SPDX ++ "description".
Definition SPDX_EXTERNAL_REF : string := NS_SPDX ++ "externalRef".
Definition SPDX_HAS_FILE : string := NS_SPDX ++ "hasFile".
Definition SPDX_PRIMARY_PACKAGE_PURPOSE : string := NS_SPDX ++ "primaryPackagePurpose".
Definition SPDX_RELEASE_DATE : string := NS_SPDX ++ "releaseDate".
Definition SPDX_BUILT_DATE : string := NS_SPDX ++ "builtDate".
Definition SPDX_VALID_UNTIL_DATE : string := NS_SPDX ++ "validUntilDate".
Definition SPDX_ATTRIBUTION_TEXT : string := NS_SPDX ++ "attributionText".
Definition SPDX_PACKAGE_VERIFICATION_CODE_VALUE : string := NS_SPDX ++ "packageVerificationCodeValue".
Definition SPDX_PACKAGE_VERIFICATION_CODE_EXCLUDED_FILE : string := NS_SPDX ++ "packageVerificationCodeExcludedFile".
Definition SPDX_RELATED_SPDX_ELEMENT : string := NS_SPDX ++ "relatedSpdxElement".
Definition SPDX_RELATIONSHIP_TYPE : string := NS_SPDX ++ "relationshipType".
Definition SPDX_SNIPPET_FROM_FILE : string := NS_SPDX ++ "snippetFromFile".
Definition SPDX_LICENSE_INFO_IN_SNIPPET : string := NS_SPDX ++ "licenseInfoInSnippet".
Definition SPDX_RANGE : string := NS_SPDX ++ "range".
Definition SPDX_REVIEWER : string := NS_SPDX ++ "reviewer".
Definition SPDX_REVIEW_DATE : string := NS_SPDX ++ "reviewDate".
Definition SPDX_SNIPPET : string := NS_SPDX ++ "Snippet".
Definition SPDX_ALGORITHM : string := NS_SPDX ++ "algorithm".
Definition SPDX_CHECKSUM_VALUE : string := NS_SPDX ++ "checksumValue".
Definition SPDX_REFERENCE_CATEGORY : string := NS_SPDX ++ "referenceCategory".
Definition SPDX_REFERENCE_CATEGORY_PACKAGE_MANAGER : string := NS_SPDX ++ "referenceCategory_packageManager".
Definition SPDX_REFERENCE_CATEGORY_SECURITY : string := NS_SPDX ++ "referenceCategory_security".
Definition SPDX_REFERENCE_CATEGORY_OTHER : string := NS_SPDX ++ "referenceCategory_other".
Definition SPDX_REFERENCE_TYPE : string := NS_SPDX ++ "referenceType".
Definition SPDX_REFERENCE_LOCATOR : string := NS_SPDX ++ "referenceLocator".
Definition SPDX_ANNOTATION_DATE : string := NS_SPDX ++ "annotationDate".
Definition SPDX_ANNOTATOR : string := NS_SPDX ++ "annotator".
Definition SPDX_MEMBER : string := NS_SPDX ++ "member".
Definition SPDX_DISJUNCTIVE_LICENSE_SET : string := NS_SPDX ++ "DisjunctiveLicenseSet".
Definition SPDX_CONJUNCTIVE_LICENSE_SET : string := NS_SPDX ++ "ConjunctiveLicenseSet".
Definition SPDX_EXTRACTED_LICENSING_INFO : string := NS_SPDX ++ "ExtractedLicensingInfo".
Definition SPDX_SIMPLE_LICENSING_INFO : string := NS_SPDX ++ "SimpleLicensingInfo".
Definition SPDX_NONE_CAPS : string := NS_SPDX ++ "NONE".
Definition SPDX_NOASSERTION_CAPS : string := NS_SPDX ++ "NOASSERTION".
Definition SPDX_NONE_SMALL : string := NS_SPDX ++ "none".
Definition SPDX_NOASSERTION_SMALL : string := NS_SPDX ++ "noassertion".
Definition SPDX_LICENSE : string := NS_SPDX ++ "License".
Definition SPDX_LISTED_LICENSE : string := NS_SPDX ++ "ListedLicense".
Definition SPDX_EXAMPLE : string := NS_SPDX ++ "example".
Definition SPDX_IS_OSI_APPROVED : string := NS_SPDX ++ "isOsiApproved".
Definition SPDX_STANDARD_LICENSE_TEMPLATE : string := NS_SPDX ++ "standardLicenseTemplate".
Definition SPDX_IS_DEPRECATED_LICENSE_ID : string := NS_SPDX ++ "isDeprecatedLicenseId".
Definition SPDX_IS_FSF_LIBRE : string := NS_SPDX ++ "isFsfLibre".
Definition SPDX_LICENSE_TEXT : string := NS_SPDX ++ "licenseText".
Definition SPDX_STANDARD_LICENSE_HEADER : string := NS_SPDX ++ "standardLicenseHeader".
Definition SPDX_LICENSE_EXCEPTION_ID : string := NS_SPDX ++ "licenseExceptionId".
Definition SPDX_LICENSE_EXCEPTION_TEXT : string := NS_SPDX ++ "licenseExceptionText".
Definition SPDX_LICENSE_EXCEPTION : string := NS_SPDX ++ "licenseException".
Definition SPDX_WITH_EXCEPTION_OPERATOR : string := NS_SPDX ++ "WithExceptionOperator".
Definition SPDX_OR_LATER_OPERATOR : string := NS_SPDX ++ "OrLaterOperator".
Definition SPDX_STANDARD_LICENSE_HEADER_TEMPLATE : string := NS_SPDX ++ "standardLicenseHeaderTemplate".
Definition RDFS_COMMENT : string := NS_RDFS ++ "comment".
Definition RDFS_SEE_ALSO : string := NS_RDFS ++ "seeAlso".
Definition RDF_TYPE : string := NS_RDF ++ "type".
Definition DOAP_HOMEPAGE : string := NS_DOAP ++ "homepage".
Definition DOAP_NAME : string := NS_DOAP ++ "name".
Definition PTR_START_POINTER : string := NS_PTR ++ "startPointer".
Definition PTR_REFERENCE : string := NS_PTR ++ "reference".
Definition PTR_OFFSET : string := NS_PTR ++ "offset".
Definition PTR_LINE_NUMBER : string := NS_PTR ++ "lineNumber".
Definition PTR_END_POINTER : string := NS_PTR ++ "endPointer".
Definition PREFIX_RELATIONSHIP_TYPE : string := "relationshipType_".

(** constants.go 146-160 (AllRelationshipTypes) *)
Definition all_relationship_types : list string := [
  "amendment"; "ancestorOf"; "buildDependencyOf"; "buildToolOf"; "containedBy"; "contains";
  "copyOf"; "dataFile"; "dataFileOf"; "dependencyManifestOf"; "dependencyOf"; "dependsOn";
  "descendantOf"; "describedBy"; "describes"; "devDependencyOf"; "devToolOf";
  "distributionArtifact"; "documentation"; "dynamicLink"; "exampleOf"; "expandedFromArchive";
  "fileAdded"; "fileDeleted"; "fileModified"; "generatedFrom"; "generates"; "hasPrerequisite";
  "metafileOf"; "optionalComponentOf"; "optionalDependencyOf"; "other"; "packageOf";
  "patchApplied"; "patchFor"; "prerequisiteFor"; "providedDependencyOf"; "runtimeDependencyOf";
  "staticLink"; "testDependencyOf"; "testOf"; "testToolOf"; "testcaseOf"; "variantOf"
].

(** constants.go 162-268 (AllStandardLicenseIDS), with its two empty entries *)
Definition all_standard_license_ids : list string := [
  "0BSD"; "389-exception"; "AAL"; "Abstyles"; "Adobe-2006"; "Adobe-Glyph"; "ADSL"; "AFL-1.1";
  "AFL-1.2"; "AFL-2.0"; "AFL-2.1"; "AFL-3.0"; "Afmparse"; "AGPL-1.0-only"; "AGPL-1.0-or-later";
  "AGPL-1.0"; "AGPL-3.0-only"; "AGPL-3.0-or-later"; "AGPL-3.0"; "Aladdin"; "AMDPLPA"; "AML";
  "AMPAS"; "ANTLR-PD"; "Apache-1.0"; "Apache-1.1"; "Apache-2.0"; "APAFML"; "APL-1.0"; "APSL-1.0";
  "APSL-1.1"; "APSL-1.2"; "APSL-2.0"; "Artistic-1.0-cl8"; "Artistic-1.0-Perl"; "Artistic-1.0";
  "Artistic-2.0"; ""; "Autoconf-exception-2.0"; "Autoconf-exception-3.0"; "Bahyph"; "Barr";
  "Beerware"; "Bison-exception-2.2"; "BitTorrent-1.0"; "BitTorrent-1.1"; "blessing";
  "BlueOak-1.0.0"; "Bootloader-exception"; "Borceux"; "BSD-1-Clause"; "BSD-2-Clause-FreeBSD";
  "BSD-2-Clause-NetBSD"; "BSD-2-Clause-Patent"; "BSD-2-Clause-Views"; "BSD-2-Clause";
  "BSD-3-Clause-Attribution"; "BSD-3-Clause-Clear"; "BSD-3-Clause-LBNL";
  "BSD-3-Clause-No-Nuclear-License-2014"; "BSD-3-Clause-No-Nuclear-License";
  "BSD-3-Clause-No-Nuclear-Warranty"; "BSD-3-Clause-Open-MPI"; "BSD-3-Clause"; "BSD-4-Clause-UC";
  "BSD-4-Clause"; "BSD-Protection"; "BSD-Source-Code"; "BSL-1.0"; "bzip2-1.0.5"; "bzip2-1.0.6";
  "CAL-1.0-Combined-Work-Exception"; "CAL-1.0"; "Caldera"; "CATOSL-1.1"; "CC-BY-1.0";
  "CC-BY-2.0"; "CC-BY-2.5"; "CC-BY-3.0-AT"; "CC-BY-3.0"; "CC-BY-4.0"; "CC-BY-NC-1.0";
  "CC-BY-NC-2.0"; "CC-BY-NC-2.5"; "CC-BY-NC-3.0"; "CC-BY-NC-4.0"; "CC-BY-NC-ND-1.0";
  "CC-BY-NC-ND-2.0"; "CC-BY-NC-ND-2.5"; "CC-BY-NC-ND-3.0-IGO"; "CC-BY-NC-ND-3.0";
  "CC-BY-NC-ND-4.0"; "CC-BY-NC-SA-1.0"; "CC-BY-NC-SA-2.0"; "CC-BY-NC-SA-2.5"; "CC-BY-NC-SA-3.0";
  "CC-BY-NC-SA-4.0"; "CC-BY-ND-1.0"; "CC-BY-ND-2.0"; "CC-BY-ND-2.5"; "CC-BY-ND-3.0";
  "CC-BY-ND-4.0"; "CC-BY-SA-1.0"; "CC-BY-SA-2.0"; "CC-BY-SA-2.5"; "CC-BY-SA-3.0-AT";
  "CC-BY-SA-3.0"; "CC-BY-SA-4.0"; "CC-PDDC"; "CC0-1.0"; "CDDL-1.0"; "CDDL-1.1";
  "CDLA-Permissive-1.0"; "CDLA-Sharing-1.0"; "CECILL-1.0"; "CECILL-1.1"; "CECILL-2.0";
  "CECILL-2.1"; "CECILL-B"; "CECILL-C"; "CERN-OHL-1.1"; "CERN-OHL-1.2"; "CERN-OHL-P-2.0";
  "CERN-OHL-S-2.0"; "CERN-OHL-W-2.0"; "ClArtistic"; "Classpath-exception-2.0";
  "CLISP-exception-2.0"; "CNRI-Jython"; "CNRI-Python-GPL-Compatible"; "CNRI-Python";
  "Condor-1.1"; "copyleft-next-0.3.0"; "copyleft-next-0.3.1"; "CPAL-1.0"; "CPL-1.0"; "CPOL-1.02";
  "Crossword"; "CrystalStacker"; "CUA-OPL-1.0"; "Cube"; "curl"; "D-FSL-1.0"; "diffmark";
  "DigiRule-FOSS-exception"; "DOC"; "Dotseqn"; "DSDP"; "dvipdfm"; "ECL-1.0"; "ECL-2.0";
  "eCos-2.0"; "eCos-exception-2.0"; "EFL-1.0"; "EFL-2.0"; "eGenix"; "Entessa"; "EPICS";
  "EPL-1.0"; "EPL-2.0"; "ErlPL-1.1"; "etalab-2.0"; "EUDatagrid"; "EUPL-1.0"; "EUPL-1.1";
  "EUPL-1.2"; "Eurosym"; "Fair"; "Fawkes-Runtime-exception"; "FLTK-exception";
  "Font-exception-2.0"; "Frameworx-1.0"; "FreeImage"; "freertos-exception-2.0"; "FSFAP"; "FSFUL";
  "FSFULLR"; "FTL"; "GCC-exception-2.0"; "GCC-exception-3.1"; "GFDL-1.1-invariants-only";
  "GFDL-1.1-invariants-or-later"; "GFDL-1.1-no-invariants-only";
  "GFDL-1.1-no-invariants-or-later"; "GFDL-1.1-only"; "GFDL-1.1-or-later"; "GFDL-1.1";
  "GFDL-1.2-invariants-only"; "GFDL-1.2-invariants-or-later"; "GFDL-1.2-no-invariants-only";
  "GFDL-1.2-no-invariants-or-later"; "GFDL-1.2-only"; "GFDL-1.2-or-later"; "GFDL-1.2";
  "GFDL-1.3-invariants-only"; "GFDL-1.3-invariants-or-later"; "GFDL-1.3-no-invariants-only";
  "GFDL-1.3-no-invariants-or-later"; "GFDL-1.3-only"; "GFDL-1.3-or-later"; "GFDL-1.3";
  "Giftware"; "GL2PS"; "Glide"; "Glulxe"; "GLWTPL"; "gnu-javamail-exception"; "gnuplot";
  "GPL-1.0+"; "GPL-1.0-only"; "GPL-1.0-or-later"; "GPL-1.0"; "GPL-2.0+"; "GPL-2.0-only";
  "GPL-2.0-or-later"; "GPL-2.0-with-autoconf-exception"; "GPL-2.0-with-bison-exception";
  "GPL-2.0-with-classpath-exception"; "GPL-2.0-with-font-exception";
  "GPL-2.0-with-GCC-exception"; "GPL-2.0"; "GPL-3.0+"; "GPL-3.0-linking-exception";
  "GPL-3.0-linking-source-exception"; "GPL-3.0-only"; "GPL-3.0-or-later";
  "GPL-3.0-with-autoconf-exception"; "GPL-3.0-with-GCC-exception"; "GPL-3.0"; "GPL-CC-1.0";
  "gSOAP-1.3b"; "HaskellReport"; "Hippocratic-2.1"; "HPND-sell-variant"; "HPND";
  "i2p-gpl-java-exception"; "IBM-pibs"; "ICU"; "IJG"; "ImageMagick"; "iMatix"; "Imlib2";
  "Info-ZIP"; "Intel-ACPI"; "Intel"; "Interbase-1.0"; "IPA"; "IPL-1.0"; "ISC"; "JasPer-2.0";
  "JPNIC"; "JSON"; "LAL-1.2"; "LAL-1.3"; "Latex2e"; "Leptonica"; "LGPL-2.0+"; "LGPL-2.0-only";
  "LGPL-2.0-or-later"; "LGPL-2.0"; "LGPL-2.1+"; "LGPL-2.1-only"; "LGPL-2.1-or-later"; "LGPL-2.1";
  "LGPL-3.0+"; "LGPL-3.0-linking-exception"; "LGPL-3.0-only"; "LGPL-3.0-or-later"; "LGPL-3.0";
  "LGPLLR"; "libpng-2.0"; "Libpng"; "libselinux-1.0"; "libtiff"; "Libtool-exception"; "licenses";
  "LiLiQ-P-1.1"; "LiLiQ-R-1.1"; "LiLiQ-Rplus-1.1"; "Linux-OpenIB"; "Linux-syscall-note";
  "LLVM-exception"; "LPL-1.0"; "LPL-1.02"; "LPPL-1.0"; "LPPL-1.1"; "LPPL-1.2"; "LPPL-1.3a";
  "LPPL-1.3c"; "LZMA-exception"; "MakeIndex"; "mif-exception"; "MirOS"; "MIT-0";
  "MIT-advertising"; "MIT-CMU"; "MIT-enna"; "MIT-feh"; "MIT"; "MITNFA"; "Motosoto"; "mpich2";
  "MPL-1.0"; "MPL-1.1"; "MPL-2.0-no-copyleft-exception"; "MPL-2.0"; "MS-PL"; "MS-RL"; "MTLL";
  "MulanPSL-1.0"; "MulanPSL-2.0"; "Multics"; "Mup"; "NASA-1.3"; "Naumen"; "NBPL-1.0";
  "NCGL-UK-2.0"; "NCSA"; "Net-SNMP"; "NetCDF"; "Newsletr"; "NGPL"; "NIST-PD-fallback"; "NIST-PD";
  "NLOD-1.0"; "NLPL"; "Nokia-Qt-exception-1.1"; "Nokia"; "NOSL"; "Noweb"; "NPL-1.0"; "NPL-1.1";
  "NPOSL-3.0"; "NRL"; "NTP-0"; "NTP"; "Nunit"; "O-UDA-1.0"; "OCaml-LGPL-linking-exception";
  "OCCT-exception-1.0"; "OCCT-PL"; "OCLC-2.0"; "ODbL-1.0"; "ODC-By-1.0"; "OFL-1.0-no-RFN";
  "OFL-1.0-RFN"; "OFL-1.0"; "OFL-1.1-no-RFN"; "OFL-1.1-RFN"; "OFL-1.1"; "OGC-1.0";
  "OGL-Canada-2.0"; "OGL-UK-1.0"; "OGL-UK-2.0"; "OGL-UK-3.0"; "OGTSL"; "OLDAP-1.1"; "OLDAP-1.2";
  "OLDAP-1.3"; "OLDAP-1.4"; "OLDAP-2.0.1"; "OLDAP-2.0"; "OLDAP-2.1"; "OLDAP-2.2.1";
  "OLDAP-2.2.2"; "OLDAP-2.2"; "OLDAP-2.3"; "OLDAP-2.4"; "OLDAP-2.5"; "OLDAP-2.6"; "OLDAP-2.7";
  "OLDAP-2.8"; "OML"; ""; "OpenJDK-assembly-exception-1.0"; "OpenSSL";
  "openvpn-openssl-exception"; "OPL-1.0"; "OSET-PL-2.1"; "OSL-1.0"; "OSL-1.1"; "OSL-2.0";
  "OSL-2.1"; "OSL-3.0"; "Parity-6.0.0"; "Parity-7.0.0"; "PDDL-1.0"; "PHP-3.0"; "PHP-3.01";
  "Plexus"; "PolyForm-Noncommercial-1.0.0"; "PolyForm-Small-Business-1.0.0"; "PostgreSQL";
  "PS-or-PDF-font-exception-20170817"; "PSF-2.0"; "psfrag"; "psutils"; "Python-2.0"; "Qhull";
  "QPL-1.0"; "Qt-GPL-exception-1.0"; "Qt-LGPL-exception-1.1"; "Qwt-exception-1.0"; "Rdisc";
  "RHeCos-1.1"; "RPL-1.1"; "RPL-1.5"; "RPSL-1.0"; "RSA-MD"; "RSCPL"; "Ruby"; "SAX-PD"; "Saxpath";
  "SCEA"; "Sendmail-8.23"; "Sendmail"; "SGI-B-1.0"; "SGI-B-1.1"; "SGI-B-2.0"; "SHL-0.5";
  "SHL-0.51"; "SHL-2.0"; "SHL-2.1"; "SimPL-2.0"; "SISSL-1.2"; "SISSL"; "Sleepycat"; "SMLNJ";
  "SMPPL"; "SNIA"; "Spencer-86"; "Spencer-94"; "Spencer-99"; "SPL-1.0"; "SSH-OpenSSH";
  "SSH-short"; "SSPL-1.0"; "StandardML-NJ"; "SugarCRM-1.1.3"; "Swift-exception"; "SWL";
  "TAPR-OHL-1.0"; "TCL"; "TCP-wrappers"; "TMate"; "TORQUE-1.1"; "TOSL"; "TU-Berlin-1.0";
  "TU-Berlin-2.0"; "u-boot-exception-2.0"; "UCL-1.0"; "Unicode-DFS-2015"; "Unicode-DFS-2016";
  "Unicode-TOU"; "Universal-FOSS-exception-1.0"; "Unlicense"; "UPL-1.0"; "Vim"; "VOSTROM";
  "VSL-1.0"; "W3C-19980720"; "W3C-20150513"; "W3C"; "Watcom-1.0"; "Wsuipa"; "WTFPL";
  "WxWindows-exception-3.1"; "wxWindows"; "X11"; "Xerox"; "XFree86-1.1"; "xinetd"; "Xnet"; "xpp";
  "XSkat"; "YPL-1.0"; "YPL-1.1"; "Zed"; "Zend-2.0"; "Zimbra-1.3"; "Zimbra-1.4";
  "zlib-acknowledgement"; "Zlib"; "ZPL-1.1"; "ZPL-2.0"; "ZPL-2.1"
].
