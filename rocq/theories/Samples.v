(** * Sample documents as texts (generated by tools/gen_samples.py).

    Byte for byte the files named below. *)
From Verif Require Import GoStr Json.
Local Open Scope string_scope.

(** /repo/examples/sample-docs/json/SPDXJSONExample-v2.2.spdx.json *)
Definition json_22 : string := String.concat "" [
"{
  ""SPDXID"" : ""SPDXRef-DOCUMENT"",
  ""spdxVersion"" : ""SPDX-2.2"",
  ""creationInfo"" : {
    ""comment"" : ""This package has been shipped in source and binary form.\nThe binaries were created with gcc 4.5.1 and expect to link to\ncompatible system run time libraries."",
    ""created"" : ""2010-01-29T18:30:22Z"",
    ""creators"" : [ ""Tool: LicenseFind-1.0"", ""Organization: ExampleCodeInspect ()"", ""Person: Jane Doe ()"" ],
    ""licenseListVersion"" : ""3.9""
  },
  ""name"" : ""SPDX-Tools-v2.0"",
  ""dataLicense"" : ""CC0-1.0"",
  ""comment"" : ""This document was created using SPDX 2.0 using licenses from the web site."",
  ""externalDocumentRefs"" : [ {
    ""externalDocumentId"" : ""DocumentRef-spdx-tool-1.2"",
    ""checksum"" : {
      ""algorithm"" : ""SHA1"",
      ""checksumValue"" : ""d6a770ba38583ed4bb4525bd96e50461655d2759""
    },
    ""spdxDocument"" : ""http://spdx.org/spdxdocs/spdx-tools-v1.2-3F2504E0-4F89-41D3-9A0C-0305E82C3301""
  } ],
  ""hasExtractedLicensingInfos"" : [ {
    ""licenseId"" : ""LicenseRef-1"",
    ""extractedText"" : ""/*\n * (c) Copyright 2000, 2001, 2002, 2003, 2004, 2005, 2006, 2007, 2008, 2009 Hewlett-Packard Development Company, LP\n * All rights reserved.\n *\n * Redistribution and use in source and binary forms, with or without\n * modification, are permitted provided that the following conditions\n * are met:\n * 1. Redistributions of source code must retain the above copyright\n *    notice, this list of conditions and the following disclaimer.\n * 2. Redistributions in binary form must reproduce the above copyright\n *    notice, this list of conditions and the following disclaimer in the\n *    documentation and/or other materials provided with the distribution.\n * 3. The name of the author may not be used to endorse or promote products\n *    derived from this software without specific prior written permission.\n *\n * THIS SOFTWARE IS PROVIDED BY THE AUTHOR ``AS IS'' AND ANY EXPRESS OR\n * IMPLIED WARRANTIES, INCLUDING, BUT NOT LIMITED TO, THE IMPLIED WARRANTIES\n * OF MERCH";
"ANTABILITY AND FITNESS FOR A PARTICULAR PURPOSE ARE DISCLAIMED.\n * IN NO EVENT SHALL THE AUTHOR BE LIABLE FOR ANY DIRECT, INDIRECT,\n * INCIDENTAL, SPECIAL, EXEMPLARY, OR CONSEQUENTIAL DAMAGES (INCLUDING, BUT\n * NOT LIMITED TO, PROCUREMENT OF SUBSTITUTE GOODS OR SERVICES; LOSS OF USE,\n * DATA, OR PROFITS; OR BUSINESS INTERRUPTION) HOWEVER CAUSED AND ON ANY\n * THEORY OF LIABILITY, WHETHER IN CONTRACT, STRICT LIABILITY, OR TORT\n * (INCLUDING NEGLIGENCE OR OTHERWISE) ARISING IN ANY WAY OUT OF THE USE OF\n * THIS SOFTWARE, EVEN IF ADVISED OF THE POSSIBILITY OF SUCH DAMAGE.\n*/""
  }, {
    ""licenseId"" : ""LicenseRef-2"",
    ""extractedText"" : ""This package includes the GRDDL parser developed by Hewlett Packard under the following license:\n� Copyright 2007 Hewlett-Packard Development Company, LP\n\nRedistribution and use in source and binary forms, with or without modification, are permitted provided that the following conditions are met: \n\nRedistributions of source code must retain the above copyright notice, this list of conditions and the following disclaimer. \nRedistributions in binary form must reproduce the above copyright notice, this list of conditions and the following disclaimer in the documentation and/or other materials provided with the distribution. \nThe name of the author may not be used to endorse or promote products derived from this software without specific prior written permission. \nTHIS SOFTWARE IS PROVIDED BY THE AUTHOR ``AS IS'' AND ANY EXPRESS OR IMPLIED WARRANTIES, INCLUDING, BUT NOT LIMITED TO, THE IMPLIED WARRANTIES OF MERCHANTABILITY AND FITNESS FOR A PARTICULAR PURPOSE ARE DISCLAIMED. IN NO EVENT SHALL THE AUTHOR BE LIABLE FOR ANY DIRECT, INDIRECT, INCIDENTAL, SPECIAL, EXEMPLARY, OR CONSEQUENTIAL DAMAGES (INCLUDING, BUT NOT LIMITED TO, PROCUREMENT OF SUBSTITUTE GOODS OR SERVICES; LOSS OF USE, DATA, OR PROFITS; OR BUSINESS INTERRUPTION) HOWEVER CAUSED AND ON ANY THEORY OF LIABILITY, WHETHER IN CONTRACT, STRICT LIABILITY, OR TORT (INC";
"LUDING NEGLIGENCE OR OTHERWISE) ARISING IN ANY WAY OUT OF THE USE OF THIS SOFTWARE, EVEN IF ADVISED OF THE POSSIBILITY OF SUCH DAMAGE.""
  }, {
    ""licenseId"" : ""LicenseRef-4"",
    ""extractedText"" : ""/*\n * (c) Copyright 2009 University of Bristol\n * All rights reserved.\n *\n * Redistribution and use in source and binary forms, with or without\n * modification, are permitted provided that the following conditions\n * are met:\n * 1. Redistributions of source code must retain the above copyright\n *    notice, this list of conditions and the following disclaimer.\n * 2. Redistributions in binary form must reproduce the above copyright\n *    notice, this list of conditions and the following disclaimer in the\n *    documentation and/or other materials provided with the distribution.\n * 3. The name of the author may not be used to endorse or promote products\n *    derived from this software without specific prior written permission.\n *\n * THIS SOFTWARE IS PROVIDED BY THE AUTHOR ``AS IS'' AND ANY EXPRESS OR\n * IMPLIED WARRANTIES, INCLUDING, BUT NOT LIMITED TO, THE IMPLIED WARRANTIES\n * OF MERCHANTABILITY AND FITNESS FOR A PARTICULAR PURPOSE ARE DISCLAIMED.\n * IN NO EVENT SHALL THE AUTHOR BE LIABLE FOR ANY DIRECT, INDIRECT,\n * INCIDENTAL, SPECIAL, EXEMPLARY, OR CONSEQUENTIAL DAMAGES (INCLUDING, BUT\n * NOT LIMITED TO, PROCUREMENT OF SUBSTITUTE GOODS OR SERVICES; LOSS OF USE,\n * DATA, OR PROFITS; OR BUSINESS INTERRUPTION) HOWEVER CAUSED AND ON ANY\n * THEORY OF LIABILITY, WHETHER IN CONTRACT, STRICT LIABILITY, OR TORT\n * (INCLUDING NEGLIGENCE OR OTHERWISE) ARISING IN ANY WAY OUT OF THE USE OF\n * THIS SOFTWARE, EVEN IF ADVISED OF THE POSSIBILITY OF SUCH DAMAGE.\n*/""
  }, {
    ""licenseId"" : ""LicenseRef-Beerware-4.2"",
    ""comment"" : ""The beerware license has a couple of other standard variants."",
    ""extractedText"" : ""\""THE BEER-WARE LICENSE\"" (Revision 42):\nphk@FreeBSD.ORG wrote this file. As long as you retain this notice you\ncan do whatever you want wit";
"h this stuff. If we meet some day, and you think this stuff is worth it, you can buy me a beer in return Poul-Henning Kamp"",
    ""name"" : ""Beer-Ware License (Version 42)"",
    ""seeAlsos"" : [ ""http://people.freebsd.org/~phk/"" ]
  }, {
    ""licenseId"" : ""LicenseRef-3"",
    ""comment"" : ""This is tye CyperNeko License"",
    ""extractedText"" : ""The CyberNeko Software License, Version 1.0\n\n \n(C) Copyright 2002-2005, Andy Clark.  All rights reserved.\n \nRedistribution and use in source and binary forms, with or without\nmodification, are permitted provided that the following conditions\nare met:\n\n1. Redistributions of source code must retain the above copyright\n   notice, this list of conditions and the following disclaimer. \n\n2. Redistributions in binary form must reproduce the above copyright\n   notice, this list of conditions and the following disclaimer in\n   the documentation and/or other materials provided with the\n   distribution.\n\n3. The end-user documentation included with the redistribution,\n   if any, must include the following acknowledgment:  \n     \""This product includes software developed by Andy Clark.\""\n   Alternately, this acknowledgment may appear in the software itself,\n   if and wherever such third-party acknowledgments normally appear.\n\n4. The names \""CyberNeko\"" and \""NekoHTML\"" must not be used to endorse\n   or promote products derived from this software without prior \n   written permission. For written permission, please contact \n   andyc@cyberneko.net.\n\n5. Products derived from this software may not be called \""CyberNeko\"",\n   nor may \""CyberNeko\"" appear in their name, without prior written\n   permission of the author.\n\nTHIS SOFTWARE IS PROVIDED ``AS IS'' AND ANY EXPRESSED OR IMPLIED\nWARRANTIES, INCLUDING, BUT NOT LIMITED TO, THE IMPLIED WARRANTIES\nOF MERCHANTABILITY AND FITNESS FOR A PARTICULAR PURPOSE ARE\nDISCLAIMED.  IN NO EVENT SHALL THE AUTHOR OR OTHER CONTRIBUTORS\nBE LIABLE FOR ANY DIRECT, INDIRECT, INCIDENTAL";
", SPECIAL, EXEMPLARY, \nOR CONSEQUENTIAL DAMAGES (INCLUDING, BUT NOT LIMITED TO, PROCUREMENT \nOF SUBSTITUTE GOODS OR SERVICES; LOSS OF USE, DATA, OR PROFITS; OR \nBUSINESS INTERRUPTION) HOWEVER CAUSED AND ON ANY THEORY OF LIABILITY, \nWHETHER IN CONTRACT, STRICT LIABILITY, OR TORT (INCLUDING NEGLIGENCE \nOR OTHERWISE) ARISING IN ANY WAY OUT OF THE USE OF THIS SOFTWARE, \nEVEN IF ADVISED OF THE POSSIBILITY OF SUCH DAMAGE."",
    ""name"" : ""CyberNeko License"",
    ""seeAlsos"" : [ ""http://people.apache.org/~andyc/neko/LICENSE"", ""http://justasample.url.com"" ]
  } ],
  ""annotations"" : [ {
    ""annotationDate"" : ""2010-01-29T18:30:22Z"",
    ""annotationType"" : ""OTHER"",
    ""annotator"" : ""Person: Jane Doe ()"",
    ""comment"" : ""Document level annotation""
  }, {
    ""annotationDate"" : ""2010-02-10T00:00:00Z"",
    ""annotationType"" : ""REVIEW"",
    ""annotator"" : ""Person: Joe Reviewer"",
    ""comment"" : ""This is just an example.  Some of the non-standard licenses look like they are actually BSD 3 clause licenses""
  }, {
    ""annotationDate"" : ""2011-03-13T00:00:00Z"",
    ""annotationType"" : ""REVIEW"",
    ""annotator"" : ""Person: Suzanne Reviewer"",
    ""comment"" : ""Another example reviewer.""
  } ],
  ""documentNamespace"" : ""http://spdx.org/spdxdocs/spdx-example-444504E0-4F89-41D3-9A0C-0305E82C3301"",
  ""documentDescribes"" : [ ""SPDXRef-File"", ""SPDXRef-Package"" ],
  ""packages"" : [ {
    ""SPDXID"" : ""SPDXRef-Package"",
    ""annotations"" : [ {
      ""annotationDate"" : ""2011-01-29T18:30:22Z"",
      ""annotationType"" : ""OTHER"",
      ""annotator"" : ""Person: Package Commenter"",
      ""comment"" : ""Package level annotation""
    } ],
    ""attributionTexts"" : [ ""The GNU C Library is free software.  See the file COPYING.LIB for copying conditions, and LICENSES for notices about a few contributions that require these additional notices to be distributed.  License copyright years may be listed using range notation, e.g., 1996-2015, indicating that every year in the range, inclusive, is a copyrightable year th";
"at would otherwise be listed individually."" ],
    ""checksums"" : [ {
      ""algorithm"" : ""MD5"",
      ""checksumValue"" : ""624c1abb3664f4b35547e7c73864ad24""
    }, {
      ""algorithm"" : ""SHA1"",
      ""checksumValue"" : ""85ed0817af83a24ad8da68c2b5094de69833983c""
    }, {
      ""algorithm"" : ""SHA256"",
      ""checksumValue"" : ""11b6d3ee554eedf79299905a98f9b9a04e498210b59f15094c916c91d150efcd""
    } ],
    ""copyrightText"" : ""Copyright 2008-2010 John Smith"",
    ""description"" : ""The GNU C Library defines functions that are specified by the ISO C standard, as well as additional features specific to POSIX and other derivatives of the Unix operating system, and extensions specific to GNU systems."",
    ""downloadLocation"" : ""http://ftp.gnu.org/gnu/glibc/glibc-ports-2.15.tar.gz"",
    ""externalRefs"" : [ {
      ""referenceCategory"" : ""SECURITY"",
      ""referenceLocator"" : ""cpe:2.3:a:pivotal_software:spring_framework:4.1.0:*:*:*:*:*:*:*"",
      ""referenceType"" : ""cpe23Type""
    }, {
      ""comment"" : ""This is the external ref for Acme"",
      ""referenceCategory"" : ""OTHER"",
      ""referenceLocator"" : ""acmecorp/acmenator/4.1.3-alpha"",
      ""referenceType"" : ""http://spdx.org/spdxdocs/spdx-example-444504E0-4F89-41D3-9A0C-0305E82C3301#LocationRef-acmeforge""
    } ],
    ""filesAnalyzed"" : true,
    ""hasFiles"" : [ ""SPDXRef-CommonsLangSrc"", ""SPDXRef-JenaLib"", ""SPDXRef-DoapSource"" ],
    ""homepage"" : ""http://ftp.gnu.org/gnu/glibc"",
    ""licenseComments"" : ""The license for this project changed with the release of version x.y.  The version of the project included here post-dates the license change."",
    ""licenseConcluded"" : ""(LGPL-2.0-only OR LicenseRef-3)"",
    ""licenseDeclared"" : ""(LGPL-2.0-only AND LicenseRef-3)"",
    ""licenseInfoFromFiles"" : [ ""GPL-2.0-only"", ""LicenseRef-2"", ""LicenseRef-1"" ],
    ""name"" : ""glibc"",
    ""originator"" : ""Organization: ExampleCodeInspect (contact@example.com)"",
    ""packageFileName"" : ""glibc-2.11.1.tar.gz"",
    ""packageVerificationCode"" : {
      ""packageVeri";
"ficationCodeExcludedFiles"" : [ ""./package.spdx"" ],
      ""packageVerificationCodeValue"" : ""d6a770ba38583ed4bb4525bd96e50461655d2758""
    },
    ""sourceInfo"" : ""uses glibc-2_11-branch from git://sourceware.org/git/glibc.git."",
    ""summary"" : ""GNU C library."",
    ""supplier"" : ""Person: Jane Doe (jane.doe@example.com)"",
    ""versionInfo"" : ""2.11.1""
  }, {
    ""SPDXID"" : ""SPDXRef-fromDoap-1"",
    ""copyrightText"" : ""NOASSERTION"",
    ""downloadLocation"" : ""NOASSERTION"",
    ""filesAnalyzed"" : false,
    ""homepage"" : ""http://commons.apache.org/proper/commons-lang/"",
    ""licenseConcluded"" : ""NOASSERTION"",
    ""licenseDeclared"" : ""NOASSERTION"",
    ""name"" : ""Apache Commons Lang""
  }, {
    ""SPDXID"" : ""SPDXRef-fromDoap-0"",
    ""copyrightText"" : ""NOASSERTION"",
    ""downloadLocation"" : ""https://search.maven.org/remotecontent?filepath=org/apache/jena/apache-jena/3.12.0/apache-jena-3.12.0.tar.gz"",
    ""externalRefs"" : [ {
      ""referenceCategory"" : ""PACKAGE_MANAGER"",
      ""referenceLocator"" : ""pkg:maven/org.apache.jena/apache-jena@3.12.0"",
      ""referenceType"" : ""purl""
    } ],
    ""homepage"" : ""http://www.openjena.org/"",
    ""licenseConcluded"" : ""NOASSERTION"",
    ""licenseDeclared"" : ""NOASSERTION"",
    ""name"" : ""Jena"",
    ""versionInfo"" : ""3.12.0""
  }, {
    ""SPDXID"" : ""SPDXRef-Saxon"",
    ""checksums"" : [ {
      ""algorithm"" : ""SHA1"",
      ""checksumValue"" : ""85ed0817af83a24ad8da68c2b5094de69833983c""
    } ],
    ""copyrightText"" : ""Copyright Saxonica Ltd"",
    ""description"" : ""The Saxon package is a collection of tools for processing XML documents."",
    ""downloadLocation"" : ""https://sourceforge.net/projects/saxon/files/Saxon-B/8.8.0.7/saxonb8-8-0-7j.zip/download"",
    ""filesAnalyzed"" : false,
    ""homepage"" : ""http://saxon.sourceforge.net/"",
    ""licenseComments"" : ""Other versions available for a commercial license"",
    ""licenseConcluded"" : ""MPL-1.0"",
    ""licenseDeclared"" : ""MPL-1.0"",
    ""name"" : ""Saxon"",
    ""packageFileName"" : ""saxonB-8.8.zip"",
    ""versionInfo"" : ""8.8";
"""
  } ],
  ""files"" : [ {
    ""SPDXID"" : ""SPDXRef-DoapSource"",
    ""checksums"" : [ {
      ""algorithm"" : ""SHA1"",
      ""checksumValue"" : ""2fd4e1c67a2d28fced849ee1bb76e7391b93eb12""
    } ],
    ""copyrightText"" : ""Copyright 2010, 2011 Source Auditor Inc."",
    ""fileContributors"" : [ ""Protecode Inc."", ""SPDX Technical Team Members"", ""Open Logic Inc."", ""Source Auditor Inc."", ""Black Duck Software In.c"" ],
    ""fileName"" : ""./src/org/spdx/parser/DOAPProject.java"",
    ""fileTypes"" : [ ""SOURCE"" ],
    ""licenseConcluded"" : ""Apache-2.0"",
    ""licenseInfoInFiles"" : [ ""Apache-2.0"" ]
  }, {
    ""SPDXID"" : ""SPDXRef-CommonsLangSrc"",
    ""checksums"" : [ {
      ""algorithm"" : ""SHA1"",
      ""checksumValue"" : ""c2b4e1c67a2d28fced849ee1bb76e7391b93f125""
    } ],
    ""comment"" : ""This file is used by Jena"",
    ""copyrightText"" : ""Copyright 2001-2011 The Apache Software Foundation"",
    ""fileContributors"" : [ ""Apache Software Foundation"" ],
    ""fileName"" : ""./lib-source/commons-lang3-3.1-sources.jar"",
    ""fileTypes"" : [ ""ARCHIVE"" ],
    ""licenseConcluded"" : ""Apache-2.0"",
    ""licenseInfoInFiles"" : [ ""Apache-2.0"" ],
    ""noticeText"" : ""Apache Commons Lang\nCopyright 2001-2011 The Apache Software Foundation\n\nThis product includes software developed by\nThe Apache Software Foundation (http://www.apache.org/).\n\nThis product includes software from the Spring Framework,\nunder the Apache License 2.0 (see: StringUtils.containsWhitespace())""
  }, {
    ""SPDXID"" : ""SPDXRef-JenaLib"",
    ""checksums"" : [ {
      ""algorithm"" : ""SHA1"",
      ""checksumValue"" : ""3ab4e1c67a2d28fced849ee1bb76e7391b93f125""
    } ],
    ""comment"" : ""This file belongs to Jena"",
    ""copyrightText"" : ""(c) Copyright 2000, 2001, 2002, 2003, 2004, 2005, 2006, 2007, 2008, 2009 Hewlett-Packard Development Company, LP"",
    ""fileContributors"" : [ ""Apache Software Foundation"", ""Hewlett Packard Inc."" ],
    ""fileName"" : ""./lib-source/jena-2.6.3-sources.jar"",
    ""fileTypes"" : [ ""ARCHIVE"" ],
    ""licenseComments"" : ""This license i";
"s used by Jena"",
    ""licenseConcluded"" : ""LicenseRef-1"",
    ""licenseInfoInFiles"" : [ ""LicenseRef-1"" ]
  }, {
    ""SPDXID"" : ""SPDXRef-File"",
    ""annotations"" : [ {
      ""annotationDate"" : ""2011-01-29T18:30:22Z"",
      ""annotationType"" : ""OTHER"",
      ""annotator"" : ""Person: File Commenter"",
      ""comment"" : ""File level annotation""
    } ],
    ""checksums"" : [ {
      ""algorithm"" : ""SHA1"",
      ""checksumValue"" : ""d6a770ba38583ed4bb4525bd96e50461655d2758""
    }, {
      ""algorithm"" : ""MD5"",
      ""checksumValue"" : ""624c1abb3664f4b35547e7c73864ad24""
    } ],
    ""comment"" : ""The concluded license was taken from the package level that the file was included in.\nThis information was found in the COPYING.txt file in the xyz directory."",
    ""copyrightText"" : ""Copyright 2008-2010 John Smith"",
    ""fileContributors"" : [ ""The Regents of the University of California"", ""Modified by Paul Mundt lethal@linux-sh.org"", ""IBM Corporation"" ],
    ""fileName"" : ""./package/foo.c"",
    ""fileTypes"" : [ ""SOURCE"" ],
    ""licenseComments"" : ""The concluded license was taken from the package level that the file was included in."",
    ""licenseConcluded"" : ""(LGPL-2.0-only OR LicenseRef-2)"",
    ""licenseInfoInFiles"" : [ ""GPL-2.0-only"", ""LicenseRef-2"" ],
    ""noticeText"" : ""Copyright (c) 2001 Aaron Lehmann aaroni@vitelus.com\n\nPermission is hereby granted, free of charge, to any person obtaining a copy of this software and associated documentation files (the �Software�), to deal in the Software without restriction, including without limitation the rights to use, copy, modify, merge, publish, distribute, sublicense, and/or sell copies of the Software, and to permit persons to whom the Software is furnished to do so, subject to the following conditions: \nThe above copyright notice and this permission notice shall be included in all copies or substantial portions of the Software.\n\nTHE SOFTWARE IS PROVIDED �AS IS', WITHOUT WARRANTY OF ANY KIND, EXPRESS OR IMPLIED, INCLUDING BUT NOT LIMIT";
"ED TO THE WARRANTIES OF MERCHANTABILITY, FITNESS FOR A PARTICULAR PURPOSE AND NONINFRINGEMENT.  IN NO EVENT SHALL THE AUTHORS OR COPYRIGHT HOLDERS BE LIABLE FOR ANY CLAIM, DAMAGES OR OTHER LIABILITY, WHETHER IN AN ACTION OF CONTRACT, TORT OR OTHERWISE, ARISING FROM, OUT OF OR IN CONNECTION WITH THE SOFTWARE OR THE USE OR OTHER DEALINGS IN THE SOFTWARE.""
  } ],
  ""snippets"" : [ {
    ""SPDXID"" : ""SPDXRef-Snippet"",
    ""comment"" : ""This snippet was identified as significant and highlighted in this Apache-2.0 file, when a commercial scanner identified it as being derived from file foo.c in package xyz which is licensed under GPL-2.0."",
    ""copyrightText"" : ""Copyright 2008-2010 John Smith"",
    ""licenseComments"" : ""The concluded license was taken from package xyz, from which the snippet was copied into the current file. The concluded license information was found in the COPYING.txt file in package xyz."",
    ""licenseConcluded"" : ""GPL-2.0-only"",
    ""licenseInfoInSnippets"" : [ ""GPL-2.0-only"" ],
    ""name"" : ""from linux kernel"",
    ""ranges"" : [ {
      ""endPointer"" : {
        ""offset"" : 420,
        ""reference"" : ""SPDXRef-DoapSource""
      },
      ""startPointer"" : {
        ""offset"" : 310,
        ""reference"" : ""SPDXRef-DoapSource""
      }
    }, {
      ""endPointer"" : {
        ""lineNumber"" : 23,
        ""reference"" : ""SPDXRef-DoapSource""
      },
      ""startPointer"" : {
        ""lineNumber"" : 5,
        ""reference"" : ""SPDXRef-DoapSource""
      }
    } ],
    ""snippetFromFile"" : ""SPDXRef-DoapSource""
  } ],
  ""relationships"" : [ {
    ""spdxElementId"" : ""SPDXRef-DOCUMENT"",
    ""relatedSpdxElement"" : ""SPDXRef-Package"",
    ""relationshipType"" : ""CONTAINS""
  }, {
    ""spdxElementId"" : ""SPDXRef-DOCUMENT"",
    ""relatedSpdxElement"" : ""DocumentRef-spdx-tool-1.2:SPDXRef-ToolsElement"",
    ""relationshipType"" : ""COPY_OF""
  }, {
    ""spdxElementId"" : ""SPDXRef-DOCUMENT"",
    ""relatedSpdxElement"" : ""SPDXRef-File"",
    ""relationshipType"" : ""DESCRIBES""
  }, {
    ""spdxElementId"" : ""S";
"PDXRef-DOCUMENT"",
    ""relatedSpdxElement"" : ""SPDXRef-Package"",
    ""relationshipType"" : ""DESCRIBES""
  }, {
    ""spdxElementId"" : ""SPDXRef-Package"",
    ""relatedSpdxElement"" : ""SPDXRef-JenaLib"",
    ""relationshipType"" : ""CONTAINS""
  }, {
    ""spdxElementId"" : ""SPDXRef-Package"",
    ""relatedSpdxElement"" : ""SPDXRef-Saxon"",
    ""relationshipType"" : ""DYNAMIC_LINK""
  }, {
    ""spdxElementId"" : ""SPDXRef-CommonsLangSrc"",
    ""relatedSpdxElement"" : ""NOASSERTION"",
    ""relationshipType"" : ""GENERATED_FROM""
  }, {
    ""spdxElementId"" : ""SPDXRef-JenaLib"",
    ""relatedSpdxElement"" : ""SPDXRef-Package"",
    ""relationshipType"" : ""CONTAINS""
  }, {
    ""spdxElementId"" : ""SPDXRef-File"",
    ""relatedSpdxElement"" : ""SPDXRef-fromDoap-0"",
    ""relationshipType"" : ""GENERATED_FROM""
  } ]
}
"].
(** /repo/examples/sample-docs/json/SPDXJSONExample-v2.3.spdx.json *)
Definition json_23 : string := String.concat "" [
"{
  ""spdxVersion"": ""SPDX-2.3"",
  ""dataLicense"": ""CC0-1.0"",
  ""SPDXID"": ""SPDXRef-DOCUMENT"",
  ""name"": ""SPDX-Tools-v2.0"",
  ""documentNamespace"": ""http://spdx.org/spdxdocs/spdx-example-444504E0-4F89-41D3-9A0C-0305E82C3301"",
  ""externalDocumentRefs"": [
    {
      ""externalDocumentId"": ""DocumentRef-spdx-tool-1.2"",
      ""spdxDocument"": ""http://spdx.org/spdxdocs/spdx-tools-v1.2-3F2504E0-4F89-41D3-9A0C-0305E82C3301"",
      ""checksum"": {
        ""algorithm"": ""SHA1"",
        ""checksumValue"": ""d6a770ba38583ed4bb4525bd96e50461655d2759""
      }
    }
  ],
  ""comment"": ""This document was created using SPDX 2.0 using licenses from the web site."",
  ""creationInfo"": {
    ""licenseListVersion"": ""3.9"",
    ""creators"": [
      ""Tool: LicenseFind-1.0"",
      ""Organization: ExampleCodeInspect ()"",
      ""Person: Jane Doe ()""
    ],
    ""created"": ""2010-01-29T18:30:22Z"",
    ""comment"": ""This package has been shipped in source and binary form.\nThe binaries were created with gcc 4.5.1 and expect to link to\ncompatible system run time libraries.""
  },
  ""packages"": [
    {
      ""name"": ""glibc"",
      ""SPDXID"": ""SPDXRef-Package"",
      ""versionInfo"": ""2.11.1"",
      ""packageFileName"": ""glibc-2.11.1.tar.gz"",
      ""supplier"": ""Person: Jane Doe (jane.doe@example.com)"",
      ""originator"": ""Organization: ExampleCodeInspect (contact@example.com)"",
      ""downloadLocation"": ""http://ftp.gnu.org/gnu/glibc/glibc-ports-2.15.tar.gz"",
      ""filesAnalyzed"": true,
      ""packageVerificationCode"": {
        ""packageVerificationCodeValue"": ""d6a770ba38583ed4bb4525bd96e50461655d2758"",
        ""packageVerificationCodeExcludedFiles"": [
          ""./package.spdx""
        ]
      },
      ""checksums"": [
        {
          ""algorithm"": ""MD5"",
          ""checksumValue"": ""624c1abb3664f4b35547e7c73864ad24""
        },
        {
          ""algorithm"": ""SHA1"",
          ""checksumValue"": ""85ed0817af83a24ad8da68c2b5094de69833983c""
        },
        {
          ""algorithm"": ""SHA256"",
          ""checksumValue"": ""11b6";
"d3ee554eedf79299905a98f9b9a04e498210b59f15094c916c91d150efcd""
        }
      ],
      ""homepage"": ""http://ftp.gnu.org/gnu/glibc"",
      ""sourceInfo"": ""uses glibc-2_11-branch from git://sourceware.org/git/glibc.git."",
      ""licenseConcluded"": ""(LGPL-2.0-only OR LicenseRef-3)"",
      ""licenseInfoFromFiles"": [
        ""GPL-2.0-only"",
        ""LicenseRef-2"",
        ""LicenseRef-1""
      ],
      ""licenseDeclared"": ""(LGPL-2.0-only AND LicenseRef-3)"",
      ""licenseComments"": ""The license for this project changed with the release of version x.y.  The version of the project included here post-dates the license change."",
      ""copyrightText"": ""Copyright 2008-2010 John Smith"",
      ""summary"": ""GNU C library."",
      ""description"": ""The GNU C Library defines functions that are specified by the ISO C standard, as well as additional features specific to POSIX and other derivatives of the Unix operating system, and extensions specific to GNU systems."",
      ""externalRefs"": [
        {
          ""referenceCategory"": ""SECURITY"",
          ""referenceType"": ""cpe23Type"",
          ""referenceLocator"": ""cpe:2.3:a:pivotal_software:spring_framework:4.1.0:*:*:*:*:*:*:*""
        },
        {
          ""referenceCategory"": ""OTHER"",
          ""referenceType"": ""http://spdx.org/spdxdocs/spdx-example-444504E0-4F89-41D3-9A0C-0305E82C3301#LocationRef-acmeforge"",
          ""referenceLocator"": ""acmecorp/acmenator/4.1.3-alpha"",
          ""comment"": ""This is the external ref for Acme""
        }
      ],
      ""attributionTexts"": [
        ""The GNU C Library is free software.  See the file COPYING.LIB for copying conditions, and LICENSES for notices about a few contributions that require these additional notices to be distributed.  License copyright years may be listed using range notation, e.g., 1996-2015, indicating that every year in the range, inclusive, is a copyrightable year that would otherwise be listed individually.""
      ],
      ""annotations"": [
        {
          ""annotator"": ""Pers";
"on: Package Commenter"",
          ""annotationDate"": ""2011-01-29T18:30:22Z"",
          ""annotationType"": ""OTHER"",
          ""comment"": ""Package level annotation""
        }
      ]
    },
    {
      ""name"": ""Apache Commons Lang"",
      ""SPDXID"": ""SPDXRef-fromDoap-1"",
      ""downloadLocation"": ""NOASSERTION"",
      ""filesAnalyzed"": false,
      ""homepage"": ""http://commons.apache.org/proper/commons-lang/"",
      ""licenseConcluded"": ""NOASSERTION"",
      ""licenseDeclared"": ""NOASSERTION"",
      ""copyrightText"": ""NOASSERTION""
    },
    {
      ""name"": ""Jena"",
      ""SPDXID"": ""SPDXRef-fromDoap-0"",
      ""versionInfo"": ""3.12.0"",
      ""downloadLocation"": ""https://search.maven.org/remotecontent?filepath=org/apache/jena/apache-jena/3.12.0/apache-jena-3.12.0.tar.gz"",
      ""homepage"": ""http://www.openjena.org/"",
      ""licenseConcluded"": ""NOASSERTION"",
      ""licenseDeclared"": ""NOASSERTION"",
      ""copyrightText"": ""NOASSERTION"",
      ""externalRefs"": [
        {
          ""referenceCategory"": ""PACKAGE-MANAGER"",
          ""referenceType"": ""purl"",
          ""referenceLocator"": ""pkg:maven/org.apache.jena/apache-jena@3.12.0""
        }
      ]
    },
    {
      ""name"": ""Saxon"",
      ""SPDXID"": ""SPDXRef-Saxon"",
      ""versionInfo"": ""8.8"",
      ""packageFileName"": ""saxonB-8.8.zip"",
      ""downloadLocation"": ""https://sourceforge.net/projects/saxon/files/Saxon-B/8.8.0.7/saxonb8-8-0-7j.zip/download"",
      ""filesAnalyzed"": false,
      ""checksums"": [
        {
          ""algorithm"": ""SHA1"",
          ""checksumValue"": ""85ed0817af83a24ad8da68c2b5094de69833983c""
        }
      ],
      ""homepage"": ""http://saxon.sourceforge.net/"",
      ""licenseConcluded"": ""MPL-1.0"",
      ""licenseDeclared"": ""MPL-1.0"",
      ""licenseComments"": ""Other versions available for a commercial license"",
      ""copyrightText"": ""Copyright Saxonica Ltd"",
      ""description"": ""The Saxon package is a collection of tools for processing XML documents.""
    },
    {
      ""name"": ""centos"",
      ""SPDXID"": ""SPDXRef-CentOS-";
"7"",
      ""versionInfo"": ""centos7.9.2009"",
      ""packageFileName"": ""saxonB-8.8.zip"",
      ""downloadLocation"": ""NOASSERTION"",
      ""homepage"": ""https://www.centos.org/"",
      ""copyrightText"": ""NOASSERTION"",
      ""description"": ""The CentOS container used to run the application."",
      ""primaryPackagePurpose"": ""CONTAINER"",
      ""releaseDate"": ""2021-10-15T02:38:00Z"",
      ""builtDate"": ""2021-09-15T02:38:00Z"",
      ""validUntilDate"": ""2022-10-15T02:38:00Z""
    }
  ],
  ""files"": [
    {
      ""fileName"": ""./src/org/spdx/parser/DOAPProject.java"",
      ""SPDXID"": ""SPDXRef-DoapSource"",
      ""fileTypes"": [
        ""SOURCE""
      ],
      ""checksums"": [
        {
          ""algorithm"": ""SHA1"",
          ""checksumValue"": ""2fd4e1c67a2d28fced849ee1bb76e7391b93eb12""
        }
      ],
      ""licenseConcluded"": ""Apache-2.0"",
      ""licenseInfoInFiles"": [
        ""Apache-2.0""
      ],
      ""copyrightText"": ""Copyright 2010, 2011 Source Auditor Inc."",
      ""fileContributors"": [
        ""Protecode Inc."",
        ""SPDX Technical Team Members"",
        ""Open Logic Inc."",
        ""Source Auditor Inc."",
        ""Black Duck Software In.c""
      ]
    },
    {
      ""fileName"": ""./lib-source/commons-lang3-3.1-sources.jar"",
      ""SPDXID"": ""SPDXRef-CommonsLangSrc"",
      ""fileTypes"": [
        ""ARCHIVE""
      ],
      ""checksums"": [
        {
          ""algorithm"": ""SHA1"",
          ""checksumValue"": ""c2b4e1c67a2d28fced849ee1bb76e7391b93f125""
        }
      ],
      ""licenseConcluded"": ""Apache-2.0"",
      ""licenseInfoInFiles"": [
        ""Apache-2.0""
      ],
      ""copyrightText"": ""Copyright 2001-2011 The Apache Software Foundation"",
      ""comment"": ""This file is used by Jena"",
      ""noticeText"": ""Apache Commons Lang\nCopyright 2001-2011 The Apache Software Foundation\n\nThis product includes software developed by\nThe Apache Software Foundation (http://www.apache.org/).\n\nThis product includes software from the Spring Framework,\nunder the Apache License 2.0 (see: StringUtils.co";
"ntainsWhitespace())"",
      ""fileContributors"": [
        ""Apache Software Foundation""
      ]
    },
    {
      ""fileName"": ""./lib-source/jena-2.6.3-sources.jar"",
      ""SPDXID"": ""SPDXRef-JenaLib"",
      ""fileTypes"": [
        ""ARCHIVE""
      ],
      ""checksums"": [
        {
          ""algorithm"": ""SHA1"",
          ""checksumValue"": ""3ab4e1c67a2d28fced849ee1bb76e7391b93f125""
        }
      ],
      ""licenseConcluded"": ""LicenseRef-1"",
      ""licenseInfoInFiles"": [
        ""LicenseRef-1""
      ],
      ""licenseComments"": ""This license is used by Jena"",
      ""copyrightText"": ""(c) Copyright 2000, 2001, 2002, 2003, 2004, 2005, 2006, 2007, 2008, 2009 Hewlett-Packard Development Company, LP"",
      ""comment"": ""This file belongs to Jena"",
      ""fileContributors"": [
        ""Apache Software Foundation"",
        ""Hewlett Packard Inc.""
      ]
    },
    {
      ""fileName"": ""./package/foo.c"",
      ""SPDXID"": ""SPDXRef-File"",
      ""fileTypes"": [
        ""SOURCE""
      ],
      ""checksums"": [
        {
          ""algorithm"": ""SHA1"",
          ""checksumValue"": ""d6a770ba38583ed4bb4525bd96e50461655d2758""
        },
        {
          ""algorithm"": ""MD5"",
          ""checksumValue"": ""624c1abb3664f4b35547e7c73864ad24""
        }
      ],
      ""licenseConcluded"": ""(LGPL-2.0-only OR LicenseRef-2)"",
      ""licenseInfoInFiles"": [
        ""GPL-2.0-only"",
        ""LicenseRef-2""
      ],
      ""licenseComments"": ""The concluded license was taken from the package level that the file was included in."",
      ""copyrightText"": ""Copyright 2008-2010 John Smith"",
      ""comment"": ""The concluded license was taken from the package level that the file was included in.\nThis information was found in the COPYING.txt file in the xyz directory."",
      ""noticeText"": ""Copyright (c) 2001 Aaron Lehmann aaroni@vitelus.com\n\nPermission is hereby granted, free of charge, to any person obtaining a copy of this software and associated documentation files (the �Software�), to deal in the Software without ";
"restriction, including without limitation the rights to use, copy, modify, merge, publish, distribute, sublicense, and/or sell copies of the Software, and to permit persons to whom the Software is furnished to do so, subject to the following conditions: \nThe above copyright notice and this permission notice shall be included in all copies or substantial portions of the Software.\n\nTHE SOFTWARE IS PROVIDED �AS IS', WITHOUT WARRANTY OF ANY KIND, EXPRESS OR IMPLIED, INCLUDING BUT NOT LIMITED TO THE WARRANTIES OF MERCHANTABILITY, FITNESS FOR A PARTICULAR PURPOSE AND NONINFRINGEMENT.  IN NO EVENT SHALL THE AUTHORS OR COPYRIGHT HOLDERS BE LIABLE FOR ANY CLAIM, DAMAGES OR OTHER LIABILITY, WHETHER IN AN ACTION OF CONTRACT, TORT OR OTHERWISE, ARISING FROM, OUT OF OR IN CONNECTION WITH THE SOFTWARE OR THE USE OR OTHER DEALINGS IN THE SOFTWARE."",
      ""fileContributors"": [
        ""The Regents of the University of California"",
        ""Modified by Paul Mundt lethal@linux-sh.org"",
        ""IBM Corporation""
      ],
      ""annotations"": [
        {
          ""annotator"": ""Person: File Commenter"",
          ""annotationDate"": ""2011-01-29T18:30:22Z"",
          ""annotationType"": ""OTHER"",
          ""comment"": ""File level annotation""
        }
      ]
    }
  ],
  ""hasExtractedLicensingInfos"": [
    {
      ""licenseId"": ""LicenseRef-1"",
      ""extractedText"": ""/*\n * (c) Copyright 2000, 2001, 2002, 2003, 2004, 2005, 2006, 2007, 2008, 2009 Hewlett-Packard Development Company, LP\n * All rights reserved.\n *\n * Redistribution and use in source and binary forms, with or without\n * modification, are permitted provided that the following conditions\n * are met:\n * 1. Redistributions of source code must retain the above copyright\n *    notice, this list of conditions and the following disclaimer.\n * 2. Redistributions in binary form must reproduce the above copyright\n *    notice, this list of conditions and the following disclaimer in the\n *    documentation and/or other materia";
"ls provided with the distribution.\n * 3. The name of the author may not be used to endorse or promote products\n *    derived from this software without specific prior written permission.\n *\n * THIS SOFTWARE IS PROVIDED BY THE AUTHOR ``AS IS'' AND ANY EXPRESS OR\n * IMPLIED WARRANTIES, INCLUDING, BUT NOT LIMITED TO, THE IMPLIED WARRANTIES\n * OF MERCHANTABILITY AND FITNESS FOR A PARTICULAR PURPOSE ARE DISCLAIMED.\n * IN NO EVENT SHALL THE AUTHOR BE LIABLE FOR ANY DIRECT, INDIRECT,\n * INCIDENTAL, SPECIAL, EXEMPLARY, OR CONSEQUENTIAL DAMAGES (INCLUDING, BUT\n * NOT LIMITED TO, PROCUREMENT OF SUBSTITUTE GOODS OR SERVICES; LOSS OF USE,\n * DATA, OR PROFITS; OR BUSINESS INTERRUPTION) HOWEVER CAUSED AND ON ANY\n * THEORY OF LIABILITY, WHETHER IN CONTRACT, STRICT LIABILITY, OR TORT\n * (INCLUDING NEGLIGENCE OR OTHERWISE) ARISING IN ANY WAY OUT OF THE USE OF\n * THIS SOFTWARE, EVEN IF ADVISED OF THE POSSIBILITY OF SUCH DAMAGE.\n*/""
    },
    {
      ""licenseId"": ""LicenseRef-2"",
      ""extractedText"": ""This package includes the GRDDL parser developed by Hewlett Packard under the following license:\n� Copyright 2007 Hewlett-Packard Development Company, LP\n\nRedistribution and use in source and binary forms, with or without modification, are permitted provided that the following conditions are met: \n\nRedistributions of source code must retain the above copyright notice, this list of conditions and the following disclaimer. \nRedistributions in binary form must reproduce the above copyright notice, this list of conditions and the following disclaimer in the documentation and/or other materials provided with the distribution. \nThe name of the author may not be used to endorse or promote products derived from this software without specific prior written permission. \nTHIS SOFTWARE IS PROVIDED BY THE AUTHOR ``AS IS'' AND ANY EXPRESS OR IMPLIED WARRANTIES, INCLUDING, BUT NOT LIMITED TO, THE IMPLIED WARRANTIES OF MERCHANTABILITY AND FITNESS FOR A PARTICULAR PURPOSE ARE DI";
"SCLAIMED. IN NO EVENT SHALL THE AUTHOR BE LIABLE FOR ANY DIRECT, INDIRECT, INCIDENTAL, SPECIAL, EXEMPLARY, OR CONSEQUENTIAL DAMAGES (INCLUDING, BUT NOT LIMITED TO, PROCUREMENT OF SUBSTITUTE GOODS OR SERVICES; LOSS OF USE, DATA, OR PROFITS; OR BUSINESS INTERRUPTION) HOWEVER CAUSED AND ON ANY THEORY OF LIABILITY, WHETHER IN CONTRACT, STRICT LIABILITY, OR TORT (INCLUDING NEGLIGENCE OR OTHERWISE) ARISING IN ANY WAY OUT OF THE USE OF THIS SOFTWARE, EVEN IF ADVISED OF THE POSSIBILITY OF SUCH DAMAGE.""
    },
    {
      ""licenseId"": ""LicenseRef-4"",
      ""extractedText"": ""/*\n * (c) Copyright 2009 University of Bristol\n * All rights reserved.\n *\n * Redistribution and use in source and binary forms, with or without\n * modification, are permitted provided that the following conditions\n * are met:\n * 1. Redistributions of source code must retain the above copyright\n *    notice, this list of conditions and the following disclaimer.\n * 2. Redistributions in binary form must reproduce the above copyright\n *    notice, this list of conditions and the following disclaimer in the\n *    documentation and/or other materials provided with the distribution.\n * 3. The name of the author may not be used to endorse or promote products\n *    derived from this software without specific prior written permission.\n *\n * THIS SOFTWARE IS PROVIDED BY THE AUTHOR ``AS IS'' AND ANY EXPRESS OR\n * IMPLIED WARRANTIES, INCLUDING, BUT NOT LIMITED TO, THE IMPLIED WARRANTIES\n * OF MERCHANTABILITY AND FITNESS FOR A PARTICULAR PURPOSE ARE DISCLAIMED.\n * IN NO EVENT SHALL THE AUTHOR BE LIABLE FOR ANY DIRECT, INDIRECT,\n * INCIDENTAL, SPECIAL, EXEMPLARY, OR CONSEQUENTIAL DAMAGES (INCLUDING, BUT\n * NOT LIMITED TO, PROCUREMENT OF SUBSTITUTE GOODS OR SERVICES; LOSS OF USE,\n * DATA, OR PROFITS; OR BUSINESS INTERRUPTION) HOWEVER CAUSED AND ON ANY\n * THEORY OF LIABILITY, WHETHER IN CONTRACT, STRICT LIABILITY, OR TORT\n * (INCLUDING NEGLIGENCE OR OTHERWISE) ARISING IN ANY WAY OUT OF THE USE OF\n";
" * THIS SOFTWARE, EVEN IF ADVISED OF THE POSSIBILITY OF SUCH DAMAGE.\n*/""
    },
    {
      ""licenseId"": ""LicenseRef-Beerware-4.2"",
      ""extractedText"": ""\""THE BEER-WARE LICENSE\"" (Revision 42):\nphk@FreeBSD.ORG wrote this file. As long as you retain this notice you\ncan do whatever you want with this stuff. If we meet some day, and you think this stuff is worth it, you can buy me a beer in return Poul-Henning Kamp"",
      ""name"": ""Beer-Ware License (Version 42)"",
      ""seeAlsos"": [
        ""http://people.freebsd.org/~phk/""
      ],
      ""comment"": ""The beerware license has a couple of other standard variants.""
    },
    {
      ""licenseId"": ""LicenseRef-3"",
      ""extractedText"": ""The CyberNeko Software License, Version 1.0\n\n \n(C) Copyright 2002-2005, Andy Clark.  All rights reserved.\n \nRedistribution and use in source and binary forms, with or without\nmodification, are permitted provided that the following conditions\nare met:\n\n1. Redistributions of source code must retain the above copyright\n   notice, this list of conditions and the following disclaimer. \n\n2. Redistributions in binary form must reproduce the above copyright\n   notice, this list of conditions and the following disclaimer in\n   the documentation and/or other materials provided with the\n   distribution.\n\n3. The end-user documentation included with the redistribution,\n   if any, must include the following acknowledgment:  \n     \""This product includes software developed by Andy Clark.\""\n   Alternately, this acknowledgment may appear in the software itself,\n   if and wherever such third-party acknowledgments normally appear.\n\n4. The names \""CyberNeko\"" and \""NekoHTML\"" must not be used to endorse\n   or promote products derived from this software without prior \n   written permission. For written permission, please contact \n   andyc@cyberneko.net.\n\n5. Products derived from this software may not be called \""CyberNeko\"",\n   nor may \""CyberNeko\"" appear in their name, with";
"out prior written\n   permission of the author.\n\nTHIS SOFTWARE IS PROVIDED ``AS IS'' AND ANY EXPRESSED OR IMPLIED\nWARRANTIES, INCLUDING, BUT NOT LIMITED TO, THE IMPLIED WARRANTIES\nOF MERCHANTABILITY AND FITNESS FOR A PARTICULAR PURPOSE ARE\nDISCLAIMED.  IN NO EVENT SHALL THE AUTHOR OR OTHER CONTRIBUTORS\nBE LIABLE FOR ANY DIRECT, INDIRECT, INCIDENTAL, SPECIAL, EXEMPLARY, \nOR CONSEQUENTIAL DAMAGES (INCLUDING, BUT NOT LIMITED TO, PROCUREMENT \nOF SUBSTITUTE GOODS OR SERVICES; LOSS OF USE, DATA, OR PROFITS; OR \nBUSINESS INTERRUPTION) HOWEVER CAUSED AND ON ANY THEORY OF LIABILITY, \nWHETHER IN CONTRACT, STRICT LIABILITY, OR TORT (INCLUDING NEGLIGENCE \nOR OTHERWISE) ARISING IN ANY WAY OUT OF THE USE OF THIS SOFTWARE, \nEVEN IF ADVISED OF THE POSSIBILITY OF SUCH DAMAGE."",
      ""name"": ""CyberNeko License"",
      ""seeAlsos"": [
        ""http://people.apache.org/~andyc/neko/LICENSE"",
        ""http://justasample.url.com""
      ],
      ""comment"": ""This is tye CyperNeko License""
    }
  ],
  ""relationships"": [
    {
      ""spdxElementId"": ""SPDXRef-DOCUMENT"",
      ""relatedSpdxElement"": ""SPDXRef-Package"",
      ""relationshipType"": ""CONTAINS"",
      ""comment"": ""A relationship comment""
    },
    {
      ""spdxElementId"": ""SPDXRef-DOCUMENT"",
      ""relatedSpdxElement"": ""DocumentRef-spdx-tool-1.2:SPDXRef-ToolsElement"",
      ""relationshipType"": ""COPY_OF""
    },
    {
      ""spdxElementId"": ""SPDXRef-DOCUMENT"",
      ""relatedSpdxElement"": ""SPDXRef-File"",
      ""relationshipType"": ""DESCRIBES""
    },
    {
      ""spdxElementId"": ""SPDXRef-DOCUMENT"",
      ""relatedSpdxElement"": ""SPDXRef-Package"",
      ""relationshipType"": ""DESCRIBES""
    },
    {
      ""spdxElementId"": ""SPDXRef-Package"",
      ""relatedSpdxElement"": ""SPDXRef-JenaLib"",
      ""relationshipType"": ""CONTAINS""
    },
    {
      ""spdxElementId"": ""SPDXRef-Package"",
      ""relatedSpdxElement"": ""SPDXRef-Saxon"",
      ""relationshipType"": ""DYNAMIC_LINK""
    },
    {
      ""spdxElementId"": ""SPDXRef-CommonsLangSrc"",
      ""rela";
"tedSpdxElement"": ""NOASSERTION"",
      ""relationshipType"": ""GENERATED_FROM""
    },
    {
      ""spdxElementId"": ""SPDXRef-JenaLib"",
      ""relatedSpdxElement"": ""SPDXRef-Package"",
      ""relationshipType"": ""CONTAINS""
    },
    {
      ""spdxElementId"": ""SPDXRef-File"",
      ""relatedSpdxElement"": ""SPDXRef-fromDoap-0"",
      ""relationshipType"": ""GENERATED_FROM""
    }
  ],
  ""annotations"": [
    {
      ""annotator"": ""Person: Jane Doe ()"",
      ""annotationDate"": ""2010-01-29T18:30:22Z"",
      ""annotationType"": ""OTHER"",
      ""comment"": ""Document level annotation""
    },
    {
      ""annotator"": ""Person: Joe Reviewer"",
      ""annotationDate"": ""2010-02-10T00:00:00Z"",
      ""annotationType"": ""REVIEW"",
      ""comment"": ""This is just an example.  Some of the non-standard licenses look like they are actually BSD 3 clause licenses""
    },
    {
      ""annotator"": ""Person: Suzanne Reviewer"",
      ""annotationDate"": ""2011-03-13T00:00:00Z"",
      ""annotationType"": ""REVIEW"",
      ""comment"": ""Another example reviewer.""
    }
  ],
  ""snippets"": [
    {
      ""SPDXID"": ""SPDXRef-Snippet"",
      ""snippetFromFile"": ""SPDXRef-DoapSource"",
      ""ranges"": [
        {
          ""startPointer"": {
            ""offset"": 310,
            ""reference"": ""SPDXRef-DoapSource""
          },
          ""endPointer"": {
            ""offset"": 420,
            ""reference"": ""SPDXRef-DoapSource""
          }
        },
        {
          ""startPointer"": {
            ""lineNumber"": 5,
            ""reference"": ""SPDXRef-DoapSource""
          },
          ""endPointer"": {
            ""lineNumber"": 23,
            ""reference"": ""SPDXRef-DoapSource""
          }
        }
      ],
      ""licenseConcluded"": ""GPL-2.0-only"",
      ""licenseInfoInSnippets"": [
        ""GPL-2.0-only""
      ],
      ""licenseComments"": ""The concluded license was taken from package xyz, from which the snippet was copied into the current file. The concluded license information was found in the COPYING.txt file in package xyz."",
      ""copyrightTex";
"t"": ""Copyright 2008-2010 John Smith"",
      ""comment"": ""This snippet was identified as significant and highlighted in this Apache-2.0 file, when a commercial scanner identified it as being derived from file foo.c in package xyz which is licensed under GPL-2.0."",
      ""name"": ""from linux kernel""
    }
  ]
}"].
(** /repo/examples/sample-docs/tv/SPDXTagExample-v2.2.spdx *)
Definition tv_22 : string := String.concat "" [
"SPDXVersion: SPDX-2.2
DataLicense: CC0-1.0
DocumentNamespace: http://spdx.org/spdxdocs/spdx-example-444504E0-4F89-41D3-9A0C-0305E82C3301
DocumentName: SPDX-Tools-v2.0
SPDXID: SPDXRef-DOCUMENT
DocumentComment: <text>This document was created using SPDX 2.0 using licenses from the web site.</text>

## External Document References
ExternalDocumentRef: DocumentRef-spdx-tool-1.2 http://spdx.org/spdxdocs/spdx-tools-v1.2-3F2504E0-4F89-41D3-9A0C-0305E82C3301 SHA1: d6a770ba38583ed4bb4525bd96e50461655d2759
## Creation Information
Creator: Tool: LicenseFind-1.0
Creator: Organization: ExampleCodeInspect ()
Creator: Person: Jane Doe ()
Created: 2010-01-29T18:30:22Z
CreatorComment: <text>This package has been shipped in source and binary form.
The binaries were created with gcc 4.5.1 and expect to link to
compatible system run time libraries.</text>
LicenseListVersion: 3.9
## Annotations
Annotator: Person: Jane Doe ()
AnnotationDate: 2010-01-29T18:30:22Z
AnnotationComment: <text>Document level annotation</text>
AnnotationType: OTHER
SPDXREF: SPDXRef-DOCUMENT
Annotator: Person: Joe Reviewer
AnnotationDate: 2010-02-10T00:00:00Z
AnnotationComment: <text>This is just an example.  Some of the non-standard licenses look like they are actually BSD 3 clause licenses</text>
AnnotationType: REVIEW
SPDXREF: SPDXRef-DOCUMENT
Annotator: Person: Suzanne Reviewer
AnnotationDate: 2011-03-13T00:00:00Z
AnnotationComment: <text>Another example reviewer.</text>
AnnotationType: REVIEW
SPDXREF: SPDXRef-DOCUMENT
## Relationships
Relationship: SPDXRef-DOCUMENT CONTAINS SPDXRef-Package
Relationship: SPDXRef-DOCUMENT COPY_OF DocumentRef-spdx-tool-1.2:SPDXRef-ToolsElement
Relationship: SPDXRef-DOCUMENT DESCRIBES SPDXRef-File
Relationship: SPDXRef-DOCUMENT DESCRIBES SPDXRef-Package

FileName: ./package/foo.c
SPDXID: SPDXRef-File
FileComment: <text>The concluded license was taken from the package level that the file was included in.
This information was found in the COPYING.txt file in the xyz directory.</te";
"xt>
FileType: SOURCE
FileChecksum: SHA1: d6a770ba38583ed4bb4525bd96e50461655d2758
FileChecksum: MD5: 624c1abb3664f4b35547e7c73864ad24
LicenseConcluded: (LGPL-2.0-only OR LicenseRef-2)
LicenseInfoInFile: GPL-2.0-only
LicenseInfoInFile: LicenseRef-2
LicenseComments: The concluded license was taken from the package level that the file was included in.
FileCopyrightText: <text>Copyright 2008-2010 John Smith</text>
FileNotice: <text>Copyright (c) 2001 Aaron Lehmann aaroni@vitelus.com

Permission is hereby granted, free of charge, to any person obtaining a copy of this software and associated documentation files (the �Software�), to deal in the Software without restriction, including without limitation the rights to use, copy, modify, merge, publish, distribute, sublicense, and/or sell copies of the Software, and to permit persons to whom the Software is furnished to do so, subject to the following conditions: 
The above copyright notice and this permission notice shall be included in all copies or substantial portions of the Software.

THE SOFTWARE IS PROVIDED �AS IS', WITHOUT WARRANTY OF ANY KIND, EXPRESS OR IMPLIED, INCLUDING BUT NOT LIMITED TO THE WARRANTIES OF MERCHANTABILITY, FITNESS FOR A PARTICULAR PURPOSE AND NONINFRINGEMENT.  IN NO EVENT SHALL THE AUTHORS OR COPYRIGHT HOLDERS BE LIABLE FOR ANY CLAIM, DAMAGES OR OTHER LIABILITY, WHETHER IN AN ACTION OF CONTRACT, TORT OR OTHERWISE, ARISING FROM, OUT OF OR IN CONNECTION WITH THE SOFTWARE OR THE USE OR OTHER DEALINGS IN THE SOFTWARE.</text>
FileContributor: The Regents of the University of California
FileContributor: Modified by Paul Mundt lethal@linux-sh.org
FileContributor: IBM Corporation
## Annotations
Annotator: Person: File Commenter
AnnotationDate: 2011-01-29T18:30:22Z
AnnotationComment: <text>File level annotation</text>
AnnotationType: OTHER
SPDXREF: SPDXRef-File
## Relationships
Relationship: SPDXRef-File GENERATED_FROM SPDXRef-fromDoap-0
## Package Information
PackageName: glibc
SPDXID: SPDXRef-Pack";
"age
PackageVersion: 2.11.1
PackageFileName: glibc-2.11.1.tar.gz
PackageSupplier: Person: Jane Doe (jane.doe@example.com)
PackageOriginator: Organization: ExampleCodeInspect (contact@example.com)
PackageDownloadLocation: http://ftp.gnu.org/gnu/glibc/glibc-ports-2.15.tar.gz
PackageVerificationCode: d6a770ba38583ed4bb4525bd96e50461655d2758(./package.spdx)
PackageChecksum: MD5: 624c1abb3664f4b35547e7c73864ad24
PackageChecksum: SHA1: 85ed0817af83a24ad8da68c2b5094de69833983c
PackageChecksum: SHA256: 11b6d3ee554eedf79299905a98f9b9a04e498210b59f15094c916c91d150efcd
PackageHomePage: http://ftp.gnu.org/gnu/glibc
PackageSourceInfo: <text>uses glibc-2_11-branch from git://sourceware.org/git/glibc.git.</text>
PackageLicenseConcluded: (LGPL-2.0-only OR LicenseRef-3)
## License information from files
PackageLicenseInfoFromFiles: GPL-2.0-only
PackageLicenseInfoFromFiles: LicenseRef-2
PackageLicenseInfoFromFiles: LicenseRef-1
PackageLicenseDeclared: (LGPL-2.0-only AND LicenseRef-3)
PackageLicenseComments: <text>The license for this project changed with the release of version x.y.  The version of the project included here post-dates the license change.</text>
PackageCopyrightText: <text>Copyright 2008-2010 John Smith</text>
PackageSummary: <text>GNU C library.</text>
PackageDescription: <text>The GNU C Library defines functions that are specified by the ISO C standard, as well as additional features specific to POSIX and other derivatives of the Unix operating system, and extensions specific to GNU systems.</text>
PackageAttributionText: <text>The GNU C Library is free software.  See the file COPYING.LIB for copying conditions, and LICENSES for notices about a few contributions that require these additional notices to be distributed.  License copyright years may be listed using range notation, e.g., 1996-2015, indicating that every year in the range, inclusive, is a copyrightable year that would otherwise be listed individually.</text>
ExternalRef: SECURITY cpe23Type cpe:2.3:a:pivota";
"l_software:spring_framework:4.1.0:*:*:*:*:*:*:*
ExternalRef: OTHER LocationRef-acmeforge acmecorp/acmenator/4.1.3-alpha
ExternalRefComment: This is the external ref for Acme
## Annotations
Annotator: Person: Package Commenter
AnnotationDate: 2011-01-29T18:30:22Z
AnnotationComment: <text>Package level annotation</text>
AnnotationType: OTHER
SPDXREF: SPDXRef-Package
## Relationships
Relationship: SPDXRef-Package CONTAINS SPDXRef-JenaLib
Relationship: SPDXRef-Package DYNAMIC_LINK SPDXRef-Saxon

## File Information
FileName: ./lib-source/commons-lang3-3.1-sources.jar
SPDXID: SPDXRef-CommonsLangSrc
FileComment: <text>This file is used by Jena</text>
FileType: ARCHIVE
FileChecksum: SHA1: c2b4e1c67a2d28fced849ee1bb76e7391b93f125
LicenseConcluded: Apache-2.0
LicenseInfoInFile: Apache-2.0
FileCopyrightText: <text>Copyright 2001-2011 The Apache Software Foundation</text>
FileNotice: <text>Apache Commons Lang
Copyright 2001-2011 The Apache Software Foundation

This product includes software developed by
The Apache Software Foundation (http://www.apache.org/).

This product includes software from the Spring Framework,
under the Apache License 2.0 (see: StringUtils.containsWhitespace())</text>
FileContributor: Apache Software Foundation
## Relationships
Relationship: SPDXRef-CommonsLangSrc GENERATED_FROM NOASSERTION

FileName: ./lib-source/jena-2.6.3-sources.jar
SPDXID: SPDXRef-JenaLib
FileComment: <text>This file belongs to Jena</text>
FileType: ARCHIVE
FileChecksum: SHA1: 3ab4e1c67a2d28fced849ee1bb76e7391b93f125
LicenseConcluded: LicenseRef-1
LicenseInfoInFile: LicenseRef-1
LicenseComments: This license is used by Jena
FileCopyrightText: <text>(c) Copyright 2000, 2001, 2002, 2003, 2004, 2005, 2006, 2007, 2008, 2009 Hewlett-Packard Development Company, LP</text>
FileContributor: Apache Software Foundation
FileContributor: Hewlett Packard Inc.
## Relationships
Relationship: SPDXRef-JenaLib CONTAINS SPDXRef-Package

FileName: ./src/org/spdx/parser/DOAPProject.java
SPDXID: SPDXRef";
"-DoapSource
FileType: SOURCE
FileChecksum: SHA1: 2fd4e1c67a2d28fced849ee1bb76e7391b93eb12
LicenseConcluded: Apache-2.0
LicenseInfoInFile: Apache-2.0
FileCopyrightText: <text>Copyright 2010, 2011 Source Auditor Inc.</text>
FileContributor: Protecode Inc.
FileContributor: SPDX Technical Team Members
FileContributor: Open Logic Inc.
FileContributor: Source Auditor Inc.
FileContributor: Black Duck Software In.c

## Package Information
PackageName: Apache Commons Lang
SPDXID: SPDXRef-fromDoap-1
PackageDownloadLocation: NOASSERTION
PackageHomePage: http://commons.apache.org/proper/commons-lang/
PackageLicenseConcluded: NOASSERTION
PackageLicenseDeclared: NOASSERTION
PackageCopyrightText: <text>NOASSERTION</text>
FilesAnalyzed: false

## Package Information
PackageName: Jena
SPDXID: SPDXRef-fromDoap-0
PackageVersion: 3.12.0
PackageDownloadLocation: https://search.maven.org/remotecontent?filepath=org/apache/jena/apache-jena/3.12.0/apache-jena-3.12.0.tar.gz
PackageHomePage: http://www.openjena.org/
PackageLicenseConcluded: NOASSERTION
PackageLicenseDeclared: NOASSERTION
PackageCopyrightText: <text>NOASSERTION</text>
ExternalRef: PACKAGE-MANAGER purl pkg:maven/org.apache.jena/apache-jena@3.12.0
FilesAnalyzed: false

## Package Information
PackageName: Saxon
SPDXID: SPDXRef-Saxon
PackageVersion: 8.8
PackageFileName: saxonB-8.8.zip
PackageDownloadLocation: https://sourceforge.net/projects/saxon/files/Saxon-B/8.8.0.7/saxonb8-8-0-7j.zip/download
PackageChecksum: SHA1: 85ed0817af83a24ad8da68c2b5094de69833983c
PackageHomePage: http://saxon.sourceforge.net/
PackageLicenseConcluded: MPL-1.0
PackageLicenseDeclared: MPL-1.0
PackageLicenseComments: <text>Other versions available for a commercial license</text>
PackageCopyrightText: <text>Copyright Saxonica Ltd</text>
PackageDescription: <text>The Saxon package is a collection of tools for processing XML documents.</text>
FilesAnalyzed: false

## Snippet Information
SnippetSPDXID: SPDXRef-Snippet
SnippetFromFileSPDXID: SPDXRef-DoapSource";
"
SnippetByteRange: 310:420
SnippetLineRange: 5:23
SnippetLicenseConcluded: GPL-2.0-only
LicenseInfoInSnippet: GPL-2.0-only
SnippetLicenseComments: The concluded license was taken from package xyz, from which the snippet was copied into the current file. The concluded license information was found in the COPYING.txt file in package xyz.
SnippetCopyrightText: Copyright 2008-2010 John Smith
SnippetComment: This snippet was identified as significant and highlighted in this Apache-2.0 file, when a commercial scanner identified it as being derived from file foo.c in package xyz which is licensed under GPL-2.0.
SnippetName: from linux kernel


## License Information
LicenseID: LicenseRef-1
ExtractedText: <text>/*
 * (c) Copyright 2000, 2001, 2002, 2003, 2004, 2005, 2006, 2007, 2008, 2009 Hewlett-Packard Development Company, LP
 * All rights reserved.
 *
 * Redistribution and use in source and binary forms, with or without
 * modification, are permitted provided that the following conditions
 * are met:
 * 1. Redistributions of source code must retain the above copyright
 *    notice, this list of conditions and the following disclaimer.
 * 2. Redistributions in binary form must reproduce the above copyright
 *    notice, this list of conditions and the following disclaimer in the
 *    documentation and/or other materials provided with the distribution.
 * 3. The name of the author may not be used to endorse or promote products
 *    derived from this software without specific prior written permission.
 *
 * THIS SOFTWARE IS PROVIDED BY THE AUTHOR ``AS IS'' AND ANY EXPRESS OR
 * IMPLIED WARRANTIES, INCLUDING, BUT NOT LIMITED TO, THE IMPLIED WARRANTIES
 * OF MERCHANTABILITY AND FITNESS FOR A PARTICULAR PURPOSE ARE DISCLAIMED.
 * IN NO EVENT SHALL THE AUTHOR BE LIABLE FOR ANY DIRECT, INDIRECT,
 * INCIDENTAL, SPECIAL, EXEMPLARY, OR CONSEQUENTIAL DAMAGES (INCLUDING, BUT
 * NOT LIMITED TO, PROCUREMENT OF SUBSTITUTE GOODS OR SERVICES; LOSS OF USE,
 * DATA, OR PROFITS; OR BUSINES";
"S INTERRUPTION) HOWEVER CAUSED AND ON ANY
 * THEORY OF LIABILITY, WHETHER IN CONTRACT, STRICT LIABILITY, OR TORT
 * (INCLUDING NEGLIGENCE OR OTHERWISE) ARISING IN ANY WAY OUT OF THE USE OF
 * THIS SOFTWARE, EVEN IF ADVISED OF THE POSSIBILITY OF SUCH DAMAGE.
*/</text>

LicenseID: LicenseRef-2
ExtractedText: <text>This package includes the GRDDL parser developed by Hewlett Packard under the following license:
� Copyright 2007 Hewlett-Packard Development Company, LP

Redistribution and use in source and binary forms, with or without modification, are permitted provided that the following conditions are met: 

Redistributions of source code must retain the above copyright notice, this list of conditions and the following disclaimer. 
Redistributions in binary form must reproduce the above copyright notice, this list of conditions and the following disclaimer in the documentation and/or other materials provided with the distribution. 
The name of the author may not be used to endorse or promote products derived from this software without specific prior written permission. 
THIS SOFTWARE IS PROVIDED BY THE AUTHOR ``AS IS'' AND ANY EXPRESS OR IMPLIED WARRANTIES, INCLUDING, BUT NOT LIMITED TO, THE IMPLIED WARRANTIES OF MERCHANTABILITY AND FITNESS FOR A PARTICULAR PURPOSE ARE DISCLAIMED. IN NO EVENT SHALL THE AUTHOR BE LIABLE FOR ANY DIRECT, INDIRECT, INCIDENTAL, SPECIAL, EXEMPLARY, OR CONSEQUENTIAL DAMAGES (INCLUDING, BUT NOT LIMITED TO, PROCUREMENT OF SUBSTITUTE GOODS OR SERVICES; LOSS OF USE, DATA, OR PROFITS; OR BUSINESS INTERRUPTION) HOWEVER CAUSED AND ON ANY THEORY OF LIABILITY, WHETHER IN CONTRACT, STRICT LIABILITY, OR TORT (INCLUDING NEGLIGENCE OR OTHERWISE) ARISING IN ANY WAY OUT OF THE USE OF THIS SOFTWARE, EVEN IF ADVISED OF THE POSSIBILITY OF SUCH DAMAGE.</text>

LicenseID: LicenseRef-4
ExtractedText: <text>/*
 * (c) Copyright 2009 University of Bristol
 * All rights reserved.
 *
 * Redistribution and use in source and binary forms, with or without
 * modificat";
"ion, are permitted provided that the following conditions
 * are met:
 * 1. Redistributions of source code must retain the above copyright
 *    notice, this list of conditions and the following disclaimer.
 * 2. Redistributions in binary form must reproduce the above copyright
 *    notice, this list of conditions and the following disclaimer in the
 *    documentation and/or other materials provided with the distribution.
 * 3. The name of the author may not be used to endorse or promote products
 *    derived from this software without specific prior written permission.
 *
 * THIS SOFTWARE IS PROVIDED BY THE AUTHOR ``AS IS'' AND ANY EXPRESS OR
 * IMPLIED WARRANTIES, INCLUDING, BUT NOT LIMITED TO, THE IMPLIED WARRANTIES
 * OF MERCHANTABILITY AND FITNESS FOR A PARTICULAR PURPOSE ARE DISCLAIMED.
 * IN NO EVENT SHALL THE AUTHOR BE LIABLE FOR ANY DIRECT, INDIRECT,
 * INCIDENTAL, SPECIAL, EXEMPLARY, OR CONSEQUENTIAL DAMAGES (INCLUDING, BUT
 * NOT LIMITED TO, PROCUREMENT OF SUBSTITUTE GOODS OR SERVICES; LOSS OF USE,
 * DATA, OR PROFITS; OR BUSINESS INTERRUPTION) HOWEVER CAUSED AND ON ANY
 * THEORY OF LIABILITY, WHETHER IN CONTRACT, STRICT LIABILITY, OR TORT
 * (INCLUDING NEGLIGENCE OR OTHERWISE) ARISING IN ANY WAY OUT OF THE USE OF
 * THIS SOFTWARE, EVEN IF ADVISED OF THE POSSIBILITY OF SUCH DAMAGE.
*/</text>

LicenseID: LicenseRef-Beerware-4.2
ExtractedText: <text>""THE BEER-WARE LICENSE"" (Revision 42):
phk@FreeBSD.ORG wrote this file. As long as you retain this notice you
can do whatever you want with this stuff. If we meet some day, and you think this stuff is worth it, you can buy me a beer in return Poul-Henning Kamp</text>
LicenseName: Beer-Ware License (Version 42)
LicenseCrossReference:  http://people.freebsd.org/~phk/
LicenseComment: The beerware license has a couple of other standard variants.

LicenseID: LicenseRef-3
ExtractedText: <text>The CyberNeko Software License, Version 1.0

 
(C) Copyright 2002-2005, Andy Clark.  All rights reserved.
 
Redistribution a";
"nd use in source and binary forms, with or without
modification, are permitted provided that the following conditions
are met:

1. Redistributions of source code must retain the above copyright
   notice, this list of conditions and the following disclaimer. 

2. Redistributions in binary form must reproduce the above copyright
   notice, this list of conditions and the following disclaimer in
   the documentation and/or other materials provided with the
   distribution.

3. The end-user documentation included with the redistribution,
   if any, must include the following acknowledgment:  
     ""This product includes software developed by Andy Clark.""
   Alternately, this acknowledgment may appear in the software itself,
   if and wherever such third-party acknowledgments normally appear.

4. The names ""CyberNeko"" and ""NekoHTML"" must not be used to endorse
   or promote products derived from this software without prior 
   written permission. For written permission, please contact 
   andyc@cyberneko.net.

5. Products derived from this software may not be called ""CyberNeko"",
   nor may ""CyberNeko"" appear in their name, without prior written
   permission of the author.

THIS SOFTWARE IS PROVIDED ``AS IS'' AND ANY EXPRESSED OR IMPLIED
WARRANTIES, INCLUDING, BUT NOT LIMITED TO, THE IMPLIED WARRANTIES
OF MERCHANTABILITY AND FITNESS FOR A PARTICULAR PURPOSE ARE
DISCLAIMED.  IN NO EVENT SHALL THE AUTHOR OR OTHER CONTRIBUTORS
BE LIABLE FOR ANY DIRECT, INDIRECT, INCIDENTAL, SPECIAL, EXEMPLARY, 
OR CONSEQUENTIAL DAMAGES (INCLUDING, BUT NOT LIMITED TO, PROCUREMENT 
OF SUBSTITUTE GOODS OR SERVICES; LOSS OF USE, DATA, OR PROFITS; OR 
BUSINESS INTERRUPTION) HOWEVER CAUSED AND ON ANY THEORY OF LIABILITY, 
WHETHER IN CONTRACT, STRICT LIABILITY, OR TORT (INCLUDING NEGLIGENCE 
OR OTHERWISE) ARISING IN ANY WAY OUT OF THE USE OF THIS SOFTWARE, 
EVEN IF ADVISED OF THE POSSIBILITY OF SUCH DAMAGE.</text>
LicenseName: CyberNeko License
LicenseCrossReference: http://people.apache.org/~and";
"yc/neko/LICENSE, http://justasample.url.com
LicenseComment: <text>This is tye CyperNeko License</text>

"].
(** /repo/examples/sample-docs/tv/SPDXTagExample-v2.3.spdx *)
Definition tv_23 : string := String.concat "" [
"SPDXVersion: SPDX-2.3
DataLicense: CC0-1.0
SPDXID: SPDXRef-DOCUMENT
DocumentName: SPDX-Tools-v2.0
DocumentNamespace: http://spdx.org/spdxdocs/spdx-example-444504E0-4F89-41D3-9A0C-0305E82C3301
ExternalDocumentRef: DocumentRef-spdx-tool-1.2 http://spdx.org/spdxdocs/spdx-tools-v1.2-3F2504E0-4F89-41D3-9A0C-0305E82C3301 SHA1:d6a770ba38583ed4bb4525bd96e50461655d2759
DocumentComment: This document was created using SPDX 2.0 using licenses from the web site.
LicenseListVersion: 3.9
Creator: Tool: LicenseFind-1.0
Creator: Organization: ExampleCodeInspect ()
Creator: Person: Jane Doe ()
Created: 2010-01-29T18:30:22Z
CreatorComment: <text>This package has been shipped in source and binary form.
The binaries were created with gcc 4.5.1 and expect to link to
compatible system run time libraries.</text>

##### Unpackaged files

FileName: ./lib-source/commons-lang3-3.1-sources.jar
SPDXID: SPDXRef-CommonsLangSrc
FileType: ARCHIVE
FileChecksum: SHA1: c2b4e1c67a2d28fced849ee1bb76e7391b93f125
LicenseConcluded: Apache-2.0
LicenseInfoInFile: Apache-2.0
FileCopyrightText: Copyright 2001-2011 The Apache Software Foundation
FileComment: This file is used by Jena
FileNotice: <text>Apache Commons Lang
Copyright 2001-2011 The Apache Software Foundation

This product includes software developed by
The Apache Software Foundation (http://www.apache.org/).

This product includes software from the Spring Framework,
under the Apache License 2.0 (see: StringUtils.containsWhitespace())</text>
FileContributor: Apache Software Foundation

FileName: ./src/org/spdx/parser/DOAPProject.java
SPDXID: SPDXRef-DoapSource
FileType: SOURCE
FileChecksum: SHA1: 2fd4e1c67a2d28fced849ee1bb76e7391b93eb12
LicenseConcluded: Apache-2.0
LicenseInfoInFile: Apache-2.0
FileCopyrightText: Copyright 2010, 2011 Source Auditor Inc.
FileContributor: Protecode Inc.
FileContributor: SPDX Technical Team Members
FileContributor: Open Logic Inc.
FileContributor: Source Auditor Inc.
FileContributor: Black Duck Software In.c

FileName:";
" ./package/foo.c
SPDXID: SPDXRef-File
FileType: SOURCE
FileChecksum: SHA1: d6a770ba38583ed4bb4525bd96e50461655d2758
FileChecksum: MD5: 624c1abb3664f4b35547e7c73864ad24
LicenseConcluded: (LGPL-2.0-only OR LicenseRef-2)
LicenseInfoInFile: GPL-2.0-only
LicenseInfoInFile: LicenseRef-2
LicenseComments: The concluded license was taken from the package level that the file was included in.
FileCopyrightText: Copyright 2008-2010 John Smith
FileComment: <text>The concluded license was taken from the package level that the file was included in.
This information was found in the COPYING.txt file in the xyz directory.</text>
FileNotice: <text>Copyright (c) 2001 Aaron Lehmann aaroni@vitelus.com

Permission is hereby granted, free of charge, to any person obtaining a copy of this software and associated documentation files (the �Software�), to deal in the Software without restriction, including without limitation the rights to use, copy, modify, merge, publish, distribute, sublicense, and/or sell copies of the Software, and to permit persons to whom the Software is furnished to do so, subject to the following conditions: 
The above copyright notice and this permission notice shall be included in all copies or substantial portions of the Software.

THE SOFTWARE IS PROVIDED �AS IS', WITHOUT WARRANTY OF ANY KIND, EXPRESS OR IMPLIED, INCLUDING BUT NOT LIMITED TO THE WARRANTIES OF MERCHANTABILITY, FITNESS FOR A PARTICULAR PURPOSE AND NONINFRINGEMENT.  IN NO EVENT SHALL THE AUTHORS OR COPYRIGHT HOLDERS BE LIABLE FOR ANY CLAIM, DAMAGES OR OTHER LIABILITY, WHETHER IN AN ACTION OF CONTRACT, TORT OR OTHERWISE, ARISING FROM, OUT OF OR IN CONNECTION WITH THE SOFTWARE OR THE USE OR OTHER DEALINGS IN THE SOFTWARE.</text>
FileContributor: The Regents of the University of California
FileContributor: Modified by Paul Mundt lethal@linux-sh.org
FileContributor: IBM Corporation

FileName: ./lib-source/jena-2.6.3-sources.jar
SPDXID: SPDXRef-JenaLib
FileType: ARCHIVE
FileChecksum: SHA1: 3ab4e1c67";
"a2d28fced849ee1bb76e7391b93f125
LicenseConcluded: LicenseRef-1
LicenseInfoInFile: LicenseRef-1
LicenseComments: This license is used by Jena
FileCopyrightText: (c) Copyright 2000, 2001, 2002, 2003, 2004, 2005, 2006, 2007, 2008, 2009 Hewlett-Packard Development Company, LP
FileComment: This file belongs to Jena
FileContributor: Apache Software Foundation
FileContributor: Hewlett Packard Inc.

##### Package: centos

PackageName: centos
SPDXID: SPDXRef-CentOS-7
PackageVersion: centos7.9.2009
PackageFileName: saxonB-8.8.zip
PackageDownloadLocation: NOASSERTION
PrimaryPackagePurpose: CONTAINER
ReleaseDate: 2021-10-15T02:38:00Z
BuiltDate: 2021-09-15T02:38:00Z
ValidUntilDate: 2022-10-15T02:38:00Z
FilesAnalyzed: true
PackageHomePage: https://www.centos.org/
PackageCopyrightText: NOASSERTION
PackageDescription: The CentOS container used to run the application.

##### Package: glibc

PackageName: glibc
SPDXID: SPDXRef-Package
PackageVersion: 2.11.1
PackageFileName: glibc-2.11.1.tar.gz
PackageSupplier: Person: Jane Doe (jane.doe@example.com)
PackageOriginator: Organization: ExampleCodeInspect (contact@example.com)
PackageDownloadLocation: http://ftp.gnu.org/gnu/glibc/glibc-ports-2.15.tar.gz
PackageVerificationCode: d6a770ba38583ed4bb4525bd96e50461655d2758 (excludes: ./package.spdx)
PackageChecksum: MD5: 624c1abb3664f4b35547e7c73864ad24
PackageChecksum: SHA1: 85ed0817af83a24ad8da68c2b5094de69833983c
PackageChecksum: SHA256: 11b6d3ee554eedf79299905a98f9b9a04e498210b59f15094c916c91d150efcd
PackageHomePage: http://ftp.gnu.org/gnu/glibc
PackageSourceInfo: uses glibc-2_11-branch from git://sourceware.org/git/glibc.git.
PackageLicenseConcluded: (LGPL-2.0-only OR LicenseRef-3)
PackageLicenseInfoFromFiles: GPL-2.0-only
PackageLicenseInfoFromFiles: LicenseRef-2
PackageLicenseInfoFromFiles: LicenseRef-1
PackageLicenseDeclared: (LGPL-2.0-only AND LicenseRef-3)
PackageLicenseComments: The license for this project changed with the release of version x.y.  The version of the project included";
" here post-dates the license change.
PackageCopyrightText: Copyright 2008-2010 John Smith
PackageSummary: GNU C library.
PackageDescription: The GNU C Library defines functions that are specified by the ISO C standard, as well as additional features specific to POSIX and other derivatives of the Unix operating system, and extensions specific to GNU systems.
ExternalRef: SECURITY cpe23Type cpe:2.3:a:pivotal_software:spring_framework:4.1.0:*:*:*:*:*:*:*
ExternalRef: OTHER http://spdx.org/spdxdocs/spdx-example-444504E0-4F89-41D3-9A0C-0305E82C3301#LocationRef-acmeforge acmecorp/acmenator/4.1.3-alpha
ExternalRefComment: This is the external ref for Acme
PackageAttributionText: The GNU C Library is free software.  See the file COPYING.LIB for copying conditions, and LICENSES for notices about a few contributions that require these additional notices to be distributed.  License copyright years may be listed using range notation, e.g., 1996-2015, indicating that every year in the range, inclusive, is a copyrightable year that would otherwise be listed individually.

##### Package: Saxon

PackageName: Saxon
SPDXID: SPDXRef-Saxon
PackageVersion: 8.8
PackageFileName: saxonB-8.8.zip
PackageDownloadLocation: https://sourceforge.net/projects/saxon/files/Saxon-B/8.8.0.7/saxonb8-8-0-7j.zip/download
FilesAnalyzed: false
PackageChecksum: SHA1: 85ed0817af83a24ad8da68c2b5094de69833983c
PackageHomePage: http://saxon.sourceforge.net/
PackageLicenseConcluded: MPL-1.0
PackageLicenseDeclared: MPL-1.0
PackageLicenseComments: Other versions available for a commercial license
PackageCopyrightText: Copyright Saxonica Ltd
PackageDescription: The Saxon package is a collection of tools for processing XML documents.

##### Package: Jena

PackageName: Jena
SPDXID: SPDXRef-fromDoap-0
PackageVersion: 3.12.0
PackageDownloadLocation: https://search.maven.org/remotecontent?filepath=org/apache/jena/apache-jena/3.12.0/apache-jena-3.12.0.tar.gz
FilesAnalyzed: true
PackageHomePage: http://www.openjena.org/
P";
"ackageLicenseConcluded: NOASSERTION
PackageLicenseDeclared: NOASSERTION
PackageCopyrightText: NOASSERTION
ExternalRef: PACKAGE-MANAGER purl pkg:maven/org.apache.jena/apache-jena@3.12.0

##### Package: Apache Commons Lang

PackageName: Apache Commons Lang
SPDXID: SPDXRef-fromDoap-1
PackageDownloadLocation: NOASSERTION
FilesAnalyzed: false
PackageHomePage: http://commons.apache.org/proper/commons-lang/
PackageLicenseConcluded: NOASSERTION
PackageLicenseDeclared: NOASSERTION
PackageCopyrightText: NOASSERTION

##### Other Licenses

LicenseID: LicenseRef-1
ExtractedText: <text>/*
 * (c) Copyright 2000, 2001, 2002, 2003, 2004, 2005, 2006, 2007, 2008, 2009 Hewlett-Packard Development Company, LP
 * All rights reserved.
 *
 * Redistribution and use in source and binary forms, with or without
 * modification, are permitted provided that the following conditions
 * are met:
 * 1. Redistributions of source code must retain the above copyright
 *    notice, this list of conditions and the following disclaimer.
 * 2. Redistributions in binary form must reproduce the above copyright
 *    notice, this list of conditions and the following disclaimer in the
 *    documentation and/or other materials provided with the distribution.
 * 3. The name of the author may not be used to endorse or promote products
 *    derived from this software without specific prior written permission.
 *
 * THIS SOFTWARE IS PROVIDED BY THE AUTHOR ``AS IS'' AND ANY EXPRESS OR
 * IMPLIED WARRANTIES, INCLUDING, BUT NOT LIMITED TO, THE IMPLIED WARRANTIES
 * OF MERCHANTABILITY AND FITNESS FOR A PARTICULAR PURPOSE ARE DISCLAIMED.
 * IN NO EVENT SHALL THE AUTHOR BE LIABLE FOR ANY DIRECT, INDIRECT,
 * INCIDENTAL, SPECIAL, EXEMPLARY, OR CONSEQUENTIAL DAMAGES (INCLUDING, BUT
 * NOT LIMITED TO, PROCUREMENT OF SUBSTITUTE GOODS OR SERVICES; LOSS OF USE,
 * DATA, OR PROFITS; OR BUSINESS INTERRUPTION) HOWEVER CAUSED AND ON ANY
 * THEORY OF LIABILITY, WHETHER IN CONTRACT, STRICT LIABILITY, OR TORT
 * (INCLUDING NEGLIGE";
"NCE OR OTHERWISE) ARISING IN ANY WAY OUT OF THE USE OF
 * THIS SOFTWARE, EVEN IF ADVISED OF THE POSSIBILITY OF SUCH DAMAGE.
*/</text>

LicenseID: LicenseRef-2
ExtractedText: <text>This package includes the GRDDL parser developed by Hewlett Packard under the following license:
� Copyright 2007 Hewlett-Packard Development Company, LP

Redistribution and use in source and binary forms, with or without modification, are permitted provided that the following conditions are met: 

Redistributions of source code must retain the above copyright notice, this list of conditions and the following disclaimer. 
Redistributions in binary form must reproduce the above copyright notice, this list of conditions and the following disclaimer in the documentation and/or other materials provided with the distribution. 
The name of the author may not be used to endorse or promote products derived from this software without specific prior written permission. 
THIS SOFTWARE IS PROVIDED BY THE AUTHOR ``AS IS'' AND ANY EXPRESS OR IMPLIED WARRANTIES, INCLUDING, BUT NOT LIMITED TO, THE IMPLIED WARRANTIES OF MERCHANTABILITY AND FITNESS FOR A PARTICULAR PURPOSE ARE DISCLAIMED. IN NO EVENT SHALL THE AUTHOR BE LIABLE FOR ANY DIRECT, INDIRECT, INCIDENTAL, SPECIAL, EXEMPLARY, OR CONSEQUENTIAL DAMAGES (INCLUDING, BUT NOT LIMITED TO, PROCUREMENT OF SUBSTITUTE GOODS OR SERVICES; LOSS OF USE, DATA, OR PROFITS; OR BUSINESS INTERRUPTION) HOWEVER CAUSED AND ON ANY THEORY OF LIABILITY, WHETHER IN CONTRACT, STRICT LIABILITY, OR TORT (INCLUDING NEGLIGENCE OR OTHERWISE) ARISING IN ANY WAY OUT OF THE USE OF THIS SOFTWARE, EVEN IF ADVISED OF THE POSSIBILITY OF SUCH DAMAGE.</text>

LicenseID: LicenseRef-4
ExtractedText: <text>/*
 * (c) Copyright 2009 University of Bristol
 * All rights reserved.
 *
 * Redistribution and use in source and binary forms, with or without
 * modification, are permitted provided that the following conditions
 * are met:
 * 1. Redistributions of source code must retain the above copyr";
"ight
 *    notice, this list of conditions and the following disclaimer.
 * 2. Redistributions in binary form must reproduce the above copyright
 *    notice, this list of conditions and the following disclaimer in the
 *    documentation and/or other materials provided with the distribution.
 * 3. The name of the author may not be used to endorse or promote products
 *    derived from this software without specific prior written permission.
 *
 * THIS SOFTWARE IS PROVIDED BY THE AUTHOR ``AS IS'' AND ANY EXPRESS OR
 * IMPLIED WARRANTIES, INCLUDING, BUT NOT LIMITED TO, THE IMPLIED WARRANTIES
 * OF MERCHANTABILITY AND FITNESS FOR A PARTICULAR PURPOSE ARE DISCLAIMED.
 * IN NO EVENT SHALL THE AUTHOR BE LIABLE FOR ANY DIRECT, INDIRECT,
 * INCIDENTAL, SPECIAL, EXEMPLARY, OR CONSEQUENTIAL DAMAGES (INCLUDING, BUT
 * NOT LIMITED TO, PROCUREMENT OF SUBSTITUTE GOODS OR SERVICES; LOSS OF USE,
 * DATA, OR PROFITS; OR BUSINESS INTERRUPTION) HOWEVER CAUSED AND ON ANY
 * THEORY OF LIABILITY, WHETHER IN CONTRACT, STRICT LIABILITY, OR TORT
 * (INCLUDING NEGLIGENCE OR OTHERWISE) ARISING IN ANY WAY OUT OF THE USE OF
 * THIS SOFTWARE, EVEN IF ADVISED OF THE POSSIBILITY OF SUCH DAMAGE.
*/</text>

LicenseID: LicenseRef-Beerware-4.2
ExtractedText: <text>""THE BEER-WARE LICENSE"" (Revision 42):
phk@FreeBSD.ORG wrote this file. As long as you retain this notice you
can do whatever you want with this stuff. If we meet some day, and you think this stuff is worth it, you can buy me a beer in return Poul-Henning Kamp</text>
LicenseName: Beer-Ware License (Version 42)
LicenseCrossReference: http://people.freebsd.org/~phk/
LicenseComment: The beerware license has a couple of other standard variants.

LicenseID: LicenseRef-3
ExtractedText: <text>The CyberNeko Software License, Version 1.0

 
(C) Copyright 2002-2005, Andy Clark.  All rights reserved.
 
Redistribution and use in source and binary forms, with or without
modification, are permitted provided that the following conditions
are met:

1. Redi";
"stributions of source code must retain the above copyright
   notice, this list of conditions and the following disclaimer. 

2. Redistributions in binary form must reproduce the above copyright
   notice, this list of conditions and the following disclaimer in
   the documentation and/or other materials provided with the
   distribution.

3. The end-user documentation included with the redistribution,
   if any, must include the following acknowledgment:  
     ""This product includes software developed by Andy Clark.""
   Alternately, this acknowledgment may appear in the software itself,
   if and wherever such third-party acknowledgments normally appear.

4. The names ""CyberNeko"" and ""NekoHTML"" must not be used to endorse
   or promote products derived from this software without prior 
   written permission. For written permission, please contact 
   andyc@cyberneko.net.

5. Products derived from this software may not be called ""CyberNeko"",
   nor may ""CyberNeko"" appear in their name, without prior written
   permission of the author.

THIS SOFTWARE IS PROVIDED ``AS IS'' AND ANY EXPRESSED OR IMPLIED
WARRANTIES, INCLUDING, BUT NOT LIMITED TO, THE IMPLIED WARRANTIES
OF MERCHANTABILITY AND FITNESS FOR A PARTICULAR PURPOSE ARE
DISCLAIMED.  IN NO EVENT SHALL THE AUTHOR OR OTHER CONTRIBUTORS
BE LIABLE FOR ANY DIRECT, INDIRECT, INCIDENTAL, SPECIAL, EXEMPLARY, 
OR CONSEQUENTIAL DAMAGES (INCLUDING, BUT NOT LIMITED TO, PROCUREMENT 
OF SUBSTITUTE GOODS OR SERVICES; LOSS OF USE, DATA, OR PROFITS; OR 
BUSINESS INTERRUPTION) HOWEVER CAUSED AND ON ANY THEORY OF LIABILITY, 
WHETHER IN CONTRACT, STRICT LIABILITY, OR TORT (INCLUDING NEGLIGENCE 
OR OTHERWISE) ARISING IN ANY WAY OUT OF THE USE OF THIS SOFTWARE, 
EVEN IF ADVISED OF THE POSSIBILITY OF SUCH DAMAGE.</text>
LicenseName: CyberNeko License
LicenseCrossReference: http://people.apache.org/~andyc/neko/LICENSE
LicenseCrossReference: http://justasample.url.com
LicenseComment: This is tye CyperNeko License

##### Relationships

R";
"elationship: SPDXRef-DOCUMENT CONTAINS SPDXRef-Package
RelationshipComment: A relationship comment
Relationship: SPDXRef-DOCUMENT COPY_OF DocumentRef-spdx-tool-1.2:SPDXRef-ToolsElement
Relationship: SPDXRef-DOCUMENT DESCRIBES SPDXRef-File
Relationship: SPDXRef-DOCUMENT DESCRIBES SPDXRef-Package
Relationship: SPDXRef-Package CONTAINS SPDXRef-JenaLib
Relationship: SPDXRef-Package DYNAMIC_LINK SPDXRef-Saxon
Relationship: SPDXRef-CommonsLangSrc GENERATED_FROM NOASSERTION
Relationship: SPDXRef-JenaLib CONTAINS SPDXRef-Package
Relationship: SPDXRef-File GENERATED_FROM SPDXRef-fromDoap-0

##### Annotations

Annotator: Person: Jane Doe ()
AnnotationDate: 2010-01-29T18:30:22Z
AnnotationType: OTHER
AnnotationComment: Document level annotation

Annotator: Person: Joe Reviewer
AnnotationDate: 2010-02-10T00:00:00Z
AnnotationType: REVIEW
AnnotationComment: This is just an example.  Some of the non-standard licenses look like they are actually BSD 3 clause licenses

Annotator: Person: Suzanne Reviewer
AnnotationDate: 2011-03-13T00:00:00Z
AnnotationType: REVIEW
AnnotationComment: Another example reviewer.

"].
(** /repo/examples/sample-docs/tv/hello.spdx *)
Definition hello : string := String.concat "" [
"SPDXVersion: SPDX-2.2
DataLicense: CC0-1.0
SPDXID: SPDXRef-DOCUMENT
DocumentName: hello
DocumentNamespace: https://swinslow.net/spdx-examples/example1/hello-v3
Creator: Person: Steve Winslow (steve@swinslow.net)
Creator: Tool: github.com/spdx/tools-golang/builder
Creator: Tool: github.com/spdx/tools-golang/idsearcher
Created: 2021-08-26T01:46:00Z

##### Package: hello

PackageName: hello
SPDXID: SPDXRef-Package-hello
PackageDownloadLocation: git+https://github.com/swinslow/spdx-examples.git#example1/content
FilesAnalyzed: true
PackageVerificationCode: 9d20237bb72087e87069f96afb41c6ca2fa2a342
PackageLicenseConcluded: GPL-3.0-or-later
PackageLicenseInfoFromFiles: GPL-3.0-or-later
PackageLicenseDeclared: GPL-3.0-or-later
PackageCopyrightText: NOASSERTION

Relationship: SPDXRef-DOCUMENT DESCRIBES SPDXRef-Package-hello

FileName: /build/hello
SPDXID: SPDXRef-hello-binary
FileType: BINARY
FileChecksum: SHA1: 20291a81ef065ff891b537b64d4fdccaf6f5ac02
FileChecksum: SHA256: 83a33ff09648bb5fc5272baca88cf2b59fd81ac4cc6817b86998136af368708e
FileChecksum: MD5: 08a12c966d776864cc1eb41fd03c3c3d
LicenseConcluded: GPL-3.0-or-later
LicenseInfoInFile: NOASSERTION
FileCopyrightText: NOASSERTION

FileName: /src/Makefile
SPDXID: SPDXRef-Makefile
FileType: SOURCE
FileChecksum: SHA1: 69a2e85696fff1865c3f0686d6c3824b59915c80
FileChecksum: SHA256: 5da19033ba058e322e21c90e6d6d859c90b1b544e7840859c12cae5da005e79c
FileChecksum: MD5: 559424589a4f3f75fd542810473d8bc1
LicenseConcluded: GPL-3.0-or-later
LicenseInfoInFile: GPL-3.0-or-later
FileCopyrightText: NOASSERTION

FileName: /src/hello.c
SPDXID: SPDXRef-hello-src
FileType: SOURCE
FileChecksum: SHA1: 20862a6d08391d07d09344029533ec644fac6b21
FileChecksum: SHA256: b4e5ca56d1f9110ca94ed0bf4e6d9ac11c2186eb7cd95159c6fdb50e8db5a823
FileChecksum: MD5: 935054fe899ca782e11003bbae5e166c
LicenseConcluded: GPL-3.0-or-later
LicenseInfoInFile: GPL-3.0-or-later
FileCopyrightText: Copyright Contributors to the spdx-examples project.

Relationship: SPDXRef-hello";
"-binary GENERATED_FROM SPDXRef-hello-src
Relationship: SPDXRef-hello-binary GENERATED_FROM SPDXRef-Makefile
Relationship: SPDXRef-Makefile BUILD_TOOL_OF SPDXRef-Package-hello
"].
(** /repo/examples/sample-docs/tv/hello-modified.spdx *)
Definition hello_modified : string := String.concat "" [
"SPDXVersion: SPDX-2.2
DataLicense: CC0-1.0
SPDXID: SPDXRef-DOCUMENT
DocumentName: hello-modified
DocumentNamespace: https://swinslow.net/sampledocs/hello-modified
Creator: Person: Steve Winslow (steve@swinslow.net)
Creator: Tool: github.com/spdx/tools-golang/builder
Creator: Tool: github.com/spdx/tools-golang/idsearcher
Created: 2022-03-30T21:23:00Z

##### Package: hello

PackageName: hello
SPDXID: SPDXRef-Package-hello
PackageDownloadLocation: git+https://github.com/swinslow/spdx-examples.git#example1/content
FilesAnalyzed: true
PackageVerificationCode: 9d20237bb72087e87069f96afb41c6ca2fa2a342
PackageLicenseConcluded: GPL-3.0-or-later AND MIT
PackageLicenseInfoFromFiles: GPL-3.0-or-later
PackageLicenseDeclared: GPL-3.0-or-later
PackageCopyrightText: NOASSERTION

Relationship: SPDXRef-DOCUMENT DESCRIBES SPDXRef-Package-hello

FileName: /build/hello
SPDXID: SPDXRef-hello-binary
FileType: BINARY
FileChecksum: SHA1: 20291a81ef065ff891b537b64d4fdccaf6f5ac02
FileChecksum: SHA256: 83a33ff09648bb5fc5272baca88cf2b59fd81ac4cc6817b86998136af368708e
FileChecksum: MD5: 08a12c966d776864cc1eb41fd03c3c3d
LicenseConcluded: GPL-3.0-or-later AND MIT
LicenseInfoInFile: NOASSERTION
FileCopyrightText: NOASSERTION

FileName: /src/Makefile
SPDXID: SPDXRef-Makefile
FileType: SOURCE
FileChecksum: SHA1: 69a2e85696fff1865c3f0686d6c3824b59915c80
FileChecksum: SHA256: 5da19033ba058e322e21c90e6d6d859c90b1b544e7840859c12cae5da005e79c
FileChecksum: MD5: 559424589a4f3f75fd542810473d8bc1
LicenseConcluded: GPL-3.0-or-later
LicenseInfoInFile: GPL-3.0-or-later
FileCopyrightText: NOASSERTION

FileName: /src/hello.c
SPDXID: SPDXRef-hello-src
FileType: SOURCE
FileChecksum: SHA1: 20862a6d08391d07d09344029533ec644fac6b21
FileChecksum: SHA256: b4e5ca56d1f9110ca94ed0bf4e6d9ac11c2186eb7cd95159c6fdb50e8db5a823
FileChecksum: MD5: 935054fe899ca782e11003bbae5e166c
LicenseConcluded: GPL-3.0-or-later AND MIT
LicenseInfoInFile: GPL-3.0-or-later
FileCopyrightText: Copyright Contributors to the spdx-examples project.

";
"Relationship: SPDXRef-hello-binary GENERATED_FROM SPDXRef-hello-src
Relationship: SPDXRef-hello-binary GENERATED_FROM SPDXRef-Makefile
Relationship: SPDXRef-Makefile BUILD_TOOL_OF SPDXRef-Package-hello
"].
(** /repo/json/test_fixtures/spdx2_3.json *)
Definition fixture_23 : string := String.concat "" [
"{
  ""SPDXID"" : ""SPDXRef-DOCUMENT"",
  ""spdxVersion"" : ""SPDX-2.3"",
  ""creationInfo"" : {
    ""created"" : ""2023-07-18T12:27:48Z"",
    ""creators"" : [ ""Person: Gary O'Neall"", ""Tool: spdx-maven-plugin"" ],
    ""licenseListVersion"" : ""3.21""
  },
  ""name"" : ""tools-java"",
  ""dataLicense"" : ""CC0-1.0"",
  ""documentDescribes"" : [ ""SPDXRef-8"" ],
  ""documentNamespace"" : ""test"",
  ""packages"" : [ {
    ""SPDXID"" : ""SPDXRef-7"",
    ""copyrightText"" : ""UNSPECIFIED"",
    ""description"" : ""A Java implementation of the JSON Schema specification"",
    ""downloadLocation"" : ""NOASSERTION"",
    ""filesAnalyzed"" : false,
    ""homepage"" : ""https://github.com/java-json-tools/json-schema-validator"",
    ""licenseConcluded"" : ""NOASSERTION"",
    ""licenseDeclared"" : ""Apache-2.0"",
    ""name"" : ""json-schema-validator"",
    ""summary"" : ""A Java implementation of the JSON Schema specification"",
    ""versionInfo"" : ""2.2.14""
  }, {
    ""SPDXID"" : ""SPDXRef-8"",
    ""copyrightText"" : ""NOASSERTION"",
    ""description"" : ""SPDX Command Line Tools using the Spdx-Java-Library"",
    ""downloadLocation"" : ""NOASSERTION"",
    ""filesAnalyzed"" : true,
    ""homepage"" : ""https://spdx.dev/"",
    ""licenseConcluded"" : ""Apache-2.0"",
    ""licenseDeclared"" : ""Apache-2.0"",
    ""licenseInfoFromFiles"" : [ ""Apache-2.0"", ""(Apache-2.0 AND Apache-2.0)"" ],
    ""name"" : ""tools-java"",
    ""originator"" : ""Organization: Linux Foundation"",
    ""packageFileName"" : ""tools-java.jar"",
    ""packageVerificationCode"" : {
      ""packageVerificationCodeValue"" : ""1756534e119a2fb5f683eb4ed0d7ecf253aa06ed""
    },
    ""primaryPackagePurpose"" : ""LIBRARY"",
    ""hasFiles"" : [ ""SPDXRef-28"", ""SPDXRef-28"", ""SPDXRef-29"", ""SPDXRef-28"", ""SPDXRef-29"", ""SPDXRef-61"", ""SPDXRef-28"", ""SPDXRef-29"", ""SPDXRef-61"", ""SPDXRef-24"", ""SPDXRef-28"", ""SPDXRef-29"", ""SPDXRef-61"", ""SPDXRef-24"", ""SPDXRef-44"", ""SPDXRef-28"", ""SPDXRef-29"", ""SPDXRef-61"", ""SPDXRef-24"", ""SPDXRef-44"", ""SPDXRef-16"", ""SPDXRef-28"", ""SPDXRef-29"", ""SPDXRef-61"", ""SPDXRef-24"", ""SPDXRef-44"", ""SPDXRef-16"", ""SPDXRef-39"", ""SPD";
"XRef-28"", ""SPDXRef-29"", ""SPDXRef-61"", ""SPDXRef-24"", ""SPDXRef-44"", ""SPDXRef-16"", ""SPDXRef-39"", ""SPDXRef-51"", ""SPDXRef-28"", ""SPDXRef-29"", ""SPDXRef-61"", ""SPDXRef-24"", ""SPDXRef-44"", ""SPDXRef-16"", ""SPDXRef-39"", ""SPDXRef-51"", ""SPDXRef-57"", ""SPDXRef-28"", ""SPDXRef-29"", ""SPDXRef-61"", ""SPDXRef-24"", ""SPDXRef-44"", ""SPDXRef-16"", ""SPDXRef-39"", ""SPDXRef-51"", ""SPDXRef-57"", ""SPDXRef-13"", ""SPDXRef-28"", ""SPDXRef-29"", ""SPDXRef-61"", ""SPDXRef-24"", ""SPDXRef-44"", ""SPDXRef-16"", ""SPDXRef-39"", ""SPDXRef-51"", ""SPDXRef-57"", ""SPDXRef-13"", ""SPDXRef-59"", ""SPDXRef-28"", ""SPDXRef-29"", ""SPDXRef-61"", ""SPDXRef-24"", ""SPDXRef-44"", ""SPDXRef-16"", ""SPDXRef-39"", ""SPDXRef-51"", ""SPDXRef-57"", ""SPDXRef-13"", ""SPDXRef-59"", ""SPDXRef-22"", ""SPDXRef-28"", ""SPDXRef-29"", ""SPDXRef-61"", ""SPDXRef-24"", ""SPDXRef-44"", ""SPDXRef-16"", ""SPDXRef-39"", ""SPDXRef-51"", ""SPDXRef-57"", ""SPDXRef-13"", ""SPDXRef-59"", ""SPDXRef-22"", ""SPDXRef-17"", ""SPDXRef-28"", ""SPDXRef-29"", ""SPDXRef-61"", ""SPDXRef-24"", ""SPDXRef-44"", ""SPDXRef-16"", ""SPDXRef-39"", ""SPDXRef-51"", ""SPDXRef-57"", ""SPDXRef-13"", ""SPDXRef-59"", ""SPDXRef-22"", ""SPDXRef-17"", ""SPDXRef-69"", ""SPDXRef-28"", ""SPDXRef-29"", ""SPDXRef-61"", ""SPDXRef-24"", ""SPDXRef-44"", ""SPDXRef-16"", ""SPDXRef-39"", ""SPDXRef-51"", ""SPDXRef-57"", ""SPDXRef-13"", ""SPDXRef-59"", ""SPDXRef-22"", ""SPDXRef-17"", ""SPDXRef-69"", ""SPDXRef-14"", ""SPDXRef-28"", ""SPDXRef-29"", ""SPDXRef-61"", ""SPDXRef-24"", ""SPDXRef-44"", ""SPDXRef-16"", ""SPDXRef-39"", ""SPDXRef-51"", ""SPDXRef-57"", ""SPDXRef-13"", ""SPDXRef-59"", ""SPDXRef-22"", ""SPDXRef-17"", ""SPDXRef-69"", ""SPDXRef-14"", ""SPDXRef-21"", ""SPDXRef-28"", ""SPDXRef-29"", ""SPDXRef-61"", ""SPDXRef-24"", ""SPDXRef-44"", ""SPDXRef-16"", ""SPDXRef-39"", ""SPDXRef-51"", ""SPDXRef-57"", ""SPDXRef-13"", ""SPDXRef-59"", ""SPDXRef-22"", ""SPDXRef-17"", ""SPDXRef-69"", ""SPDXRef-14"", ""SPDXRef-21"", ""SPDXRef-11"", ""SPDXRef-28"", ""SPDXRef-29"", ""SPDXRef-61"", ""SPDXRef-24"", ""SPDXRef-44"", ""SPDXRef-16"", ""SPDXRef-39"", ""SPDXRef-51"", ""SPDXRef-57"", ""SPDXRef-13"", ""SPDXRef-59"", ""SPDXRef-22"", ""SPDXRef-17"", ""SPDXRef-69"", ""SPDXRef-14"", ""SPDXRef-21"", ""SPDXRef-11"", ""SPDXRef-32"", ""S";
"PDXRef-28"", ""SPDXRef-29"", ""SPDXRef-61"", ""SPDXRef-24"", ""SPDXRef-44"", ""SPDXRef-16"", ""SPDXRef-39"", ""SPDXRef-51"", ""SPDXRef-57"", ""SPDXRef-13"", ""SPDXRef-59"", ""SPDXRef-22"", ""SPDXRef-17"", ""SPDXRef-69"", ""SPDXRef-14"", ""SPDXRef-21"", ""SPDXRef-11"", ""SPDXRef-32"", ""SPDXRef-18"", ""SPDXRef-28"", ""SPDXRef-29"", ""SPDXRef-61"", ""SPDXRef-24"", ""SPDXRef-44"", ""SPDXRef-16"", ""SPDXRef-39"", ""SPDXRef-51"", ""SPDXRef-57"", ""SPDXRef-13"", ""SPDXRef-59"", ""SPDXRef-22"", ""SPDXRef-17"", ""SPDXRef-69"", ""SPDXRef-14"", ""SPDXRef-21"", ""SPDXRef-11"", ""SPDXRef-32"", ""SPDXRef-18"", ""SPDXRef-19"", ""SPDXRef-28"", ""SPDXRef-29"", ""SPDXRef-61"", ""SPDXRef-24"", ""SPDXRef-44"", ""SPDXRef-16"", ""SPDXRef-39"", ""SPDXRef-51"", ""SPDXRef-57"", ""SPDXRef-13"", ""SPDXRef-59"", ""SPDXRef-22"", ""SPDXRef-17"", ""SPDXRef-69"", ""SPDXRef-14"", ""SPDXRef-21"", ""SPDXRef-11"", ""SPDXRef-32"", ""SPDXRef-18"", ""SPDXRef-19"", ""SPDXRef-36"", ""SPDXRef-28"", ""SPDXRef-29"", ""SPDXRef-61"", ""SPDXRef-24"", ""SPDXRef-44"", ""SPDXRef-16"", ""SPDXRef-39"", ""SPDXRef-51"", ""SPDXRef-57"", ""SPDXRef-13"", ""SPDXRef-59"", ""SPDXRef-22"", ""SPDXRef-17"", ""SPDXRef-69"", ""SPDXRef-14"", ""SPDXRef-21"", ""SPDXRef-11"", ""SPDXRef-32"", ""SPDXRef-18"", ""SPDXRef-19"", ""SPDXRef-36"", ""SPDXRef-42"", ""SPDXRef-28"", ""SPDXRef-29"", ""SPDXRef-61"", ""SPDXRef-24"", ""SPDXRef-44"", ""SPDXRef-16"", ""SPDXRef-39"", ""SPDXRef-51"", ""SPDXRef-57"", ""SPDXRef-13"", ""SPDXRef-59"", ""SPDXRef-22"", ""SPDXRef-17"", ""SPDXRef-69"", ""SPDXRef-14"", ""SPDXRef-21"", ""SPDXRef-11"", ""SPDXRef-32"", ""SPDXRef-18"", ""SPDXRef-19"", ""SPDXRef-36"", ""SPDXRef-42"", ""SPDXRef-27"", ""SPDXRef-28"", ""SPDXRef-29"", ""SPDXRef-61"", ""SPDXRef-24"", ""SPDXRef-44"", ""SPDXRef-16"", ""SPDXRef-39"", ""SPDXRef-51"", ""SPDXRef-57"", ""SPDXRef-13"", ""SPDXRef-59"", ""SPDXRef-22"", ""SPDXRef-17"", ""SPDXRef-69"", ""SPDXRef-14"", ""SPDXRef-21"", ""SPDXRef-11"", ""SPDXRef-32"", ""SPDXRef-18"", ""SPDXRef-19"", ""SPDXRef-36"", ""SPDXRef-42"", ""SPDXRef-27"", ""SPDXRef-58"", ""SPDXRef-28"", ""SPDXRef-29"", ""SPDXRef-61"", ""SPDXRef-24"", ""SPDXRef-44"", ""SPDXRef-16"", ""SPDXRef-39"", ""SPDXRef-51"", ""SPDXRef-57"", ""SPDXRef-13"", ""SPDXRef-59"", ""SPDXRef-22"", ""SPDXRef-17"", ""SPDXRef-69"", ";
"""SPDXRef-14"", ""SPDXRef-21"", ""SPDXRef-11"", ""SPDXRef-32"", ""SPDXRef-18"", ""SPDXRef-19"", ""SPDXRef-36"", ""SPDXRef-42"", ""SPDXRef-27"", ""SPDXRef-58"", ""SPDXRef-54"", ""SPDXRef-28"", ""SPDXRef-29"", ""SPDXRef-61"", ""SPDXRef-24"", ""SPDXRef-44"", ""SPDXRef-16"", ""SPDXRef-39"", ""SPDXRef-51"", ""SPDXRef-57"", ""SPDXRef-13"", ""SPDXRef-59"", ""SPDXRef-22"", ""SPDXRef-17"", ""SPDXRef-69"", ""SPDXRef-14"", ""SPDXRef-21"", ""SPDXRef-11"", ""SPDXRef-32"", ""SPDXRef-18"", ""SPDXRef-19"", ""SPDXRef-36"", ""SPDXRef-42"", ""SPDXRef-27"", ""SPDXRef-58"", ""SPDXRef-54"", ""SPDXRef-50"", ""SPDXRef-28"", ""SPDXRef-29"", ""SPDXRef-61"", ""SPDXRef-24"", ""SPDXRef-44"", ""SPDXRef-16"", ""SPDXRef-39"", ""SPDXRef-51"", ""SPDXRef-57"", ""SPDXRef-13"", ""SPDXRef-59"", ""SPDXRef-22"", ""SPDXRef-17"", ""SPDXRef-69"", ""SPDXRef-14"", ""SPDXRef-21"", ""SPDXRef-11"", ""SPDXRef-32"", ""SPDXRef-18"", ""SPDXRef-19"", ""SPDXRef-36"", ""SPDXRef-42"", ""SPDXRef-27"", ""SPDXRef-58"", ""SPDXRef-54"", ""SPDXRef-50"", ""SPDXRef-64"", ""SPDXRef-28"", ""SPDXRef-29"", ""SPDXRef-61"", ""SPDXRef-24"", ""SPDXRef-44"", ""SPDXRef-16"", ""SPDXRef-39"", ""SPDXRef-51"", ""SPDXRef-57"", ""SPDXRef-13"", ""SPDXRef-59"", ""SPDXRef-22"", ""SPDXRef-17"", ""SPDXRef-69"", ""SPDXRef-14"", ""SPDXRef-21"", ""SPDXRef-11"", ""SPDXRef-32"", ""SPDXRef-18"", ""SPDXRef-19"", ""SPDXRef-36"", ""SPDXRef-42"", ""SPDXRef-27"", ""SPDXRef-58"", ""SPDXRef-54"", ""SPDXRef-50"", ""SPDXRef-64"", ""SPDXRef-34"", ""SPDXRef-28"", ""SPDXRef-29"", ""SPDXRef-61"", ""SPDXRef-24"", ""SPDXRef-44"", ""SPDXRef-16"", ""SPDXRef-39"", ""SPDXRef-51"", ""SPDXRef-57"", ""SPDXRef-13"", ""SPDXRef-59"", ""SPDXRef-22"", ""SPDXRef-17"", ""SPDXRef-69"", ""SPDXRef-14"", ""SPDXRef-21"", ""SPDXRef-11"", ""SPDXRef-32"", ""SPDXRef-18"", ""SPDXRef-19"", ""SPDXRef-36"", ""SPDXRef-42"", ""SPDXRef-27"", ""SPDXRef-58"", ""SPDXRef-54"", ""SPDXRef-50"", ""SPDXRef-64"", ""SPDXRef-34"", ""SPDXRef-38"", ""SPDXRef-28"", ""SPDXRef-29"", ""SPDXRef-61"", ""SPDXRef-24"", ""SPDXRef-44"", ""SPDXRef-16"", ""SPDXRef-39"", ""SPDXRef-51"", ""SPDXRef-57"", ""SPDXRef-13"", ""SPDXRef-59"", ""SPDXRef-22"", ""SPDXRef-17"", ""SPDXRef-69"", ""SPDXRef-14"", ""SPDXRef-21"", ""SPDXRef-11"", ""SPDXRef-32"", ""SPDXRef-18"", ""SPDXRef-19"", ""SPDXRef-36"", ""SPDXRef-42""";
", ""SPDXRef-27"", ""SPDXRef-58"", ""SPDXRef-54"", ""SPDXRef-50"", ""SPDXRef-64"", ""SPDXRef-34"", ""SPDXRef-38"", ""SPDXRef-15"", ""SPDXRef-28"", ""SPDXRef-29"", ""SPDXRef-61"", ""SPDXRef-24"", ""SPDXRef-44"", ""SPDXRef-16"", ""SPDXRef-39"", ""SPDXRef-51"", ""SPDXRef-57"", ""SPDXRef-13"", ""SPDXRef-59"", ""SPDXRef-22"", ""SPDXRef-17"", ""SPDXRef-69"", ""SPDXRef-14"", ""SPDXRef-21"", ""SPDXRef-11"", ""SPDXRef-32"", ""SPDXRef-18"", ""SPDXRef-19"", ""SPDXRef-36"", ""SPDXRef-42"", ""SPDXRef-27"", ""SPDXRef-58"", ""SPDXRef-54"", ""SPDXRef-50"", ""SPDXRef-64"", ""SPDXRef-34"", ""SPDXRef-38"", ""SPDXRef-15"", ""SPDXRef-25"", ""SPDXRef-28"", ""SPDXRef-29"", ""SPDXRef-61"", ""SPDXRef-24"", ""SPDXRef-44"", ""SPDXRef-16"", ""SPDXRef-39"", ""SPDXRef-51"", ""SPDXRef-57"", ""SPDXRef-13"", ""SPDXRef-59"", ""SPDXRef-22"", ""SPDXRef-17"", ""SPDXRef-69"", ""SPDXRef-14"", ""SPDXRef-21"", ""SPDXRef-11"", ""SPDXRef-32"", ""SPDXRef-18"", ""SPDXRef-19"", ""SPDXRef-36"", ""SPDXRef-42"", ""SPDXRef-27"", ""SPDXRef-58"", ""SPDXRef-54"", ""SPDXRef-50"", ""SPDXRef-64"", ""SPDXRef-34"", ""SPDXRef-38"", ""SPDXRef-15"", ""SPDXRef-25"", ""SPDXRef-35"", ""SPDXRef-28"", ""SPDXRef-29"", ""SPDXRef-61"", ""SPDXRef-24"", ""SPDXRef-44"", ""SPDXRef-16"", ""SPDXRef-39"", ""SPDXRef-51"", ""SPDXRef-57"", ""SPDXRef-13"", ""SPDXRef-59"", ""SPDXRef-22"", ""SPDXRef-17"", ""SPDXRef-69"", ""SPDXRef-14"", ""SPDXRef-21"", ""SPDXRef-11"", ""SPDXRef-32"", ""SPDXRef-18"", ""SPDXRef-19"", ""SPDXRef-36"", ""SPDXRef-42"", ""SPDXRef-27"", ""SPDXRef-58"", ""SPDXRef-54"", ""SPDXRef-50"", ""SPDXRef-64"", ""SPDXRef-34"", ""SPDXRef-38"", ""SPDXRef-15"", ""SPDXRef-25"", ""SPDXRef-35"", ""SPDXRef-31"", ""SPDXRef-28"", ""SPDXRef-29"", ""SPDXRef-61"", ""SPDXRef-24"", ""SPDXRef-44"", ""SPDXRef-16"", ""SPDXRef-39"", ""SPDXRef-51"", ""SPDXRef-57"", ""SPDXRef-13"", ""SPDXRef-59"", ""SPDXRef-22"", ""SPDXRef-17"", ""SPDXRef-69"", ""SPDXRef-14"", ""SPDXRef-21"", ""SPDXRef-11"", ""SPDXRef-32"", ""SPDXRef-18"", ""SPDXRef-19"", ""SPDXRef-36"", ""SPDXRef-42"", ""SPDXRef-27"", ""SPDXRef-58"", ""SPDXRef-54"", ""SPDXRef-50"", ""SPDXRef-64"", ""SPDXRef-34"", ""SPDXRef-38"", ""SPDXRef-15"", ""SPDXRef-25"", ""SPDXRef-35"", ""SPDXRef-31"", ""SPDXRef-56"", ""SPDXRef-28"", ""SPDXRef-29"", ""SPDXRef-61"", ""SPDXRef-24"", ""SPDXRef-4";
"4"", ""SPDXRef-16"", ""SPDXRef-39"", ""SPDXRef-51"", ""SPDXRef-57"", ""SPDXRef-13"", ""SPDXRef-59"", ""SPDXRef-22"", ""SPDXRef-17"", ""SPDXRef-69"", ""SPDXRef-14"", ""SPDXRef-21"", ""SPDXRef-11"", ""SPDXRef-32"", ""SPDXRef-18"", ""SPDXRef-19"", ""SPDXRef-36"", ""SPDXRef-42"", ""SPDXRef-27"", ""SPDXRef-58"", ""SPDXRef-54"", ""SPDXRef-50"", ""SPDXRef-64"", ""SPDXRef-34"", ""SPDXRef-38"", ""SPDXRef-15"", ""SPDXRef-25"", ""SPDXRef-35"", ""SPDXRef-31"", ""SPDXRef-56"", ""SPDXRef-66"", ""SPDXRef-28"", ""SPDXRef-29"", ""SPDXRef-61"", ""SPDXRef-24"", ""SPDXRef-44"", ""SPDXRef-16"", ""SPDXRef-39"", ""SPDXRef-51"", ""SPDXRef-57"", ""SPDXRef-13"", ""SPDXRef-59"", ""SPDXRef-22"", ""SPDXRef-17"", ""SPDXRef-69"", ""SPDXRef-14"", ""SPDXRef-21"", ""SPDXRef-11"", ""SPDXRef-32"", ""SPDXRef-18"", ""SPDXRef-19"", ""SPDXRef-36"", ""SPDXRef-42"", ""SPDXRef-27"", ""SPDXRef-58"", ""SPDXRef-54"", ""SPDXRef-50"", ""SPDXRef-64"", ""SPDXRef-34"", ""SPDXRef-38"", ""SPDXRef-15"", ""SPDXRef-25"", ""SPDXRef-35"", ""SPDXRef-31"", ""SPDXRef-56"", ""SPDXRef-66"", ""SPDXRef-68"", ""SPDXRef-28"", ""SPDXRef-29"", ""SPDXRef-61"", ""SPDXRef-24"", ""SPDXRef-44"", ""SPDXRef-16"", ""SPDXRef-39"", ""SPDXRef-51"", ""SPDXRef-57"", ""SPDXRef-13"", ""SPDXRef-59"", ""SPDXRef-22"", ""SPDXRef-17"", ""SPDXRef-69"", ""SPDXRef-14"", ""SPDXRef-21"", ""SPDXRef-11"", ""SPDXRef-32"", ""SPDXRef-18"", ""SPDXRef-19"", ""SPDXRef-36"", ""SPDXRef-42"", ""SPDXRef-27"", ""SPDXRef-58"", ""SPDXRef-54"", ""SPDXRef-50"", ""SPDXRef-64"", ""SPDXRef-34"", ""SPDXRef-38"", ""SPDXRef-15"", ""SPDXRef-25"", ""SPDXRef-35"", ""SPDXRef-31"", ""SPDXRef-56"", ""SPDXRef-66"", ""SPDXRef-68"", ""SPDXRef-53"", ""SPDXRef-28"", ""SPDXRef-29"", ""SPDXRef-61"", ""SPDXRef-24"", ""SPDXRef-44"", ""SPDXRef-16"", ""SPDXRef-39"", ""SPDXRef-51"", ""SPDXRef-57"", ""SPDXRef-13"", ""SPDXRef-59"", ""SPDXRef-22"", ""SPDXRef-17"", ""SPDXRef-69"", ""SPDXRef-14"", ""SPDXRef-21"", ""SPDXRef-11"", ""SPDXRef-32"", ""SPDXRef-18"", ""SPDXRef-19"", ""SPDXRef-36"", ""SPDXRef-42"", ""SPDXRef-27"", ""SPDXRef-58"", ""SPDXRef-54"", ""SPDXRef-50"", ""SPDXRef-64"", ""SPDXRef-34"", ""SPDXRef-38"", ""SPDXRef-15"", ""SPDXRef-25"", ""SPDXRef-35"", ""SPDXRef-31"", ""SPDXRef-56"", ""SPDXRef-66"", ""SPDXRef-68"", ""SPDXRef-53"", ""SPDXRef-55"", ""SPDXRef-28"", ""SPDXRef";
"-29"", ""SPDXRef-61"", ""SPDXRef-24"", ""SPDXRef-44"", ""SPDXRef-16"", ""SPDXRef-39"", ""SPDXRef-51"", ""SPDXRef-57"", ""SPDXRef-13"", ""SPDXRef-59"", ""SPDXRef-22"", ""SPDXRef-17"", ""SPDXRef-69"", ""SPDXRef-14"", ""SPDXRef-21"", ""SPDXRef-11"", ""SPDXRef-32"", ""SPDXRef-18"", ""SPDXRef-19"", ""SPDXRef-36"", ""SPDXRef-42"", ""SPDXRef-27"", ""SPDXRef-58"", ""SPDXRef-54"", ""SPDXRef-50"", ""SPDXRef-64"", ""SPDXRef-34"", ""SPDXRef-38"", ""SPDXRef-15"", ""SPDXRef-25"", ""SPDXRef-35"", ""SPDXRef-31"", ""SPDXRef-56"", ""SPDXRef-66"", ""SPDXRef-68"", ""SPDXRef-53"", ""SPDXRef-55"", ""SPDXRef-33"", ""SPDXRef-28"", ""SPDXRef-29"", ""SPDXRef-61"", ""SPDXRef-24"", ""SPDXRef-44"", ""SPDXRef-16"", ""SPDXRef-39"", ""SPDXRef-51"", ""SPDXRef-57"", ""SPDXRef-13"", ""SPDXRef-59"", ""SPDXRef-22"", ""SPDXRef-17"", ""SPDXRef-69"", ""SPDXRef-14"", ""SPDXRef-21"", ""SPDXRef-11"", ""SPDXRef-32"", ""SPDXRef-18"", ""SPDXRef-19"", ""SPDXRef-36"", ""SPDXRef-42"", ""SPDXRef-27"", ""SPDXRef-58"", ""SPDXRef-54"", ""SPDXRef-50"", ""SPDXRef-64"", ""SPDXRef-34"", ""SPDXRef-38"", ""SPDXRef-15"", ""SPDXRef-25"", ""SPDXRef-35"", ""SPDXRef-31"", ""SPDXRef-56"", ""SPDXRef-66"", ""SPDXRef-68"", ""SPDXRef-53"", ""SPDXRef-55"", ""SPDXRef-33"", ""SPDXRef-62"", ""SPDXRef-28"", ""SPDXRef-29"", ""SPDXRef-61"", ""SPDXRef-24"", ""SPDXRef-44"", ""SPDXRef-16"", ""SPDXRef-39"", ""SPDXRef-51"", ""SPDXRef-57"", ""SPDXRef-13"", ""SPDXRef-59"", ""SPDXRef-22"", ""SPDXRef-17"", ""SPDXRef-69"", ""SPDXRef-14"", ""SPDXRef-21"", ""SPDXRef-11"", ""SPDXRef-32"", ""SPDXRef-18"", ""SPDXRef-19"", ""SPDXRef-36"", ""SPDXRef-42"", ""SPDXRef-27"", ""SPDXRef-58"", ""SPDXRef-54"", ""SPDXRef-50"", ""SPDXRef-64"", ""SPDXRef-34"", ""SPDXRef-38"", ""SPDXRef-15"", ""SPDXRef-25"", ""SPDXRef-35"", ""SPDXRef-31"", ""SPDXRef-56"", ""SPDXRef-66"", ""SPDXRef-68"", ""SPDXRef-53"", ""SPDXRef-55"", ""SPDXRef-33"", ""SPDXRef-62"", ""SPDXRef-67"", ""SPDXRef-28"", ""SPDXRef-29"", ""SPDXRef-61"", ""SPDXRef-24"", ""SPDXRef-44"", ""SPDXRef-16"", ""SPDXRef-39"", ""SPDXRef-51"", ""SPDXRef-57"", ""SPDXRef-13"", ""SPDXRef-59"", ""SPDXRef-22"", ""SPDXRef-17"", ""SPDXRef-69"", ""SPDXRef-14"", ""SPDXRef-21"", ""SPDXRef-11"", ""SPDXRef-32"", ""SPDXRef-18"", ""SPDXRef-19"", ""SPDXRef-36"", ""SPDXRef-42"", ""SPDXRef-27"", ""SPDXRef-58"", ""SPDXR";
"ef-54"", ""SPDXRef-50"", ""SPDXRef-64"", ""SPDXRef-34"", ""SPDXRef-38"", ""SPDXRef-15"", ""SPDXRef-25"", ""SPDXRef-35"", ""SPDXRef-31"", ""SPDXRef-56"", ""SPDXRef-66"", ""SPDXRef-68"", ""SPDXRef-53"", ""SPDXRef-55"", ""SPDXRef-33"", ""SPDXRef-62"", ""SPDXRef-67"", ""SPDXRef-47"", ""SPDXRef-28"", ""SPDXRef-29"", ""SPDXRef-61"", ""SPDXRef-24"", ""SPDXRef-44"", ""SPDXRef-16"", ""SPDXRef-39"", ""SPDXRef-51"", ""SPDXRef-57"", ""SPDXRef-13"", ""SPDXRef-59"", ""SPDXRef-22"", ""SPDXRef-17"", ""SPDXRef-69"", ""SPDXRef-14"", ""SPDXRef-21"", ""SPDXRef-11"", ""SPDXRef-32"", ""SPDXRef-18"", ""SPDXRef-19"", ""SPDXRef-36"", ""SPDXRef-42"", ""SPDXRef-27"", ""SPDXRef-58"", ""SPDXRef-54"", ""SPDXRef-50"", ""SPDXRef-64"", ""SPDXRef-34"", ""SPDXRef-38"", ""SPDXRef-15"", ""SPDXRef-25"", ""SPDXRef-35"", ""SPDXRef-31"", ""SPDXRef-56"", ""SPDXRef-66"", ""SPDXRef-68"", ""SPDXRef-53"", ""SPDXRef-55"", ""SPDXRef-33"", ""SPDXRef-62"", ""SPDXRef-67"", ""SPDXRef-47"", ""SPDXRef-40"", ""SPDXRef-28"", ""SPDXRef-29"", ""SPDXRef-61"", ""SPDXRef-24"", ""SPDXRef-44"", ""SPDXRef-16"", ""SPDXRef-39"", ""SPDXRef-51"", ""SPDXRef-57"", ""SPDXRef-13"", ""SPDXRef-59"", ""SPDXRef-22"", ""SPDXRef-17"", ""SPDXRef-69"", ""SPDXRef-14"", ""SPDXRef-21"", ""SPDXRef-11"", ""SPDXRef-32"", ""SPDXRef-18"", ""SPDXRef-19"", ""SPDXRef-36"", ""SPDXRef-42"", ""SPDXRef-27"", ""SPDXRef-58"", ""SPDXRef-54"", ""SPDXRef-50"", ""SPDXRef-64"", ""SPDXRef-34"", ""SPDXRef-38"", ""SPDXRef-15"", ""SPDXRef-25"", ""SPDXRef-35"", ""SPDXRef-31"", ""SPDXRef-56"", ""SPDXRef-66"", ""SPDXRef-68"", ""SPDXRef-53"", ""SPDXRef-55"", ""SPDXRef-33"", ""SPDXRef-62"", ""SPDXRef-67"", ""SPDXRef-47"", ""SPDXRef-40"", ""SPDXRef-60"", ""SPDXRef-28"", ""SPDXRef-29"", ""SPDXRef-61"", ""SPDXRef-24"", ""SPDXRef-44"", ""SPDXRef-16"", ""SPDXRef-39"", ""SPDXRef-51"", ""SPDXRef-57"", ""SPDXRef-13"", ""SPDXRef-59"", ""SPDXRef-22"", ""SPDXRef-17"", ""SPDXRef-69"", ""SPDXRef-14"", ""SPDXRef-21"", ""SPDXRef-11"", ""SPDXRef-32"", ""SPDXRef-18"", ""SPDXRef-19"", ""SPDXRef-36"", ""SPDXRef-42"", ""SPDXRef-27"", ""SPDXRef-58"", ""SPDXRef-54"", ""SPDXRef-50"", ""SPDXRef-64"", ""SPDXRef-34"", ""SPDXRef-38"", ""SPDXRef-15"", ""SPDXRef-25"", ""SPDXRef-35"", ""SPDXRef-31"", ""SPDXRef-56"", ""SPDXRef-66"", ""SPDXRef-68"", ""SPDXRef-53"", ""SPDXRef-55"", ""SPD";
"XRef-33"", ""SPDXRef-62"", ""SPDXRef-67"", ""SPDXRef-47"", ""SPDXRef-40"", ""SPDXRef-60"", ""SPDXRef-9"", ""SPDXRef-28"", ""SPDXRef-29"", ""SPDXRef-61"", ""SPDXRef-24"", ""SPDXRef-44"", ""SPDXRef-16"", ""SPDXRef-39"", ""SPDXRef-51"", ""SPDXRef-57"", ""SPDXRef-13"", ""SPDXRef-59"", ""SPDXRef-22"", ""SPDXRef-17"", ""SPDXRef-69"", ""SPDXRef-14"", ""SPDXRef-21"", ""SPDXRef-11"", ""SPDXRef-32"", ""SPDXRef-18"", ""SPDXRef-19"", ""SPDXRef-36"", ""SPDXRef-42"", ""SPDXRef-27"", ""SPDXRef-58"", ""SPDXRef-54"", ""SPDXRef-50"", ""SPDXRef-64"", ""SPDXRef-34"", ""SPDXRef-38"", ""SPDXRef-15"", ""SPDXRef-25"", ""SPDXRef-35"", ""SPDXRef-31"", ""SPDXRef-56"", ""SPDXRef-66"", ""SPDXRef-68"", ""SPDXRef-53"", ""SPDXRef-55"", ""SPDXRef-33"", ""SPDXRef-62"", ""SPDXRef-67"", ""SPDXRef-47"", ""SPDXRef-40"", ""SPDXRef-60"", ""SPDXRef-9"", ""SPDXRef-20"", ""SPDXRef-28"", ""SPDXRef-29"", ""SPDXRef-61"", ""SPDXRef-24"", ""SPDXRef-44"", ""SPDXRef-16"", ""SPDXRef-39"", ""SPDXRef-51"", ""SPDXRef-57"", ""SPDXRef-13"", ""SPDXRef-59"", ""SPDXRef-22"", ""SPDXRef-17"", ""SPDXRef-69"", ""SPDXRef-14"", ""SPDXRef-21"", ""SPDXRef-11"", ""SPDXRef-32"", ""SPDXRef-18"", ""SPDXRef-19"", ""SPDXRef-36"", ""SPDXRef-42"", ""SPDXRef-27"", ""SPDXRef-58"", ""SPDXRef-54"", ""SPDXRef-50"", ""SPDXRef-64"", ""SPDXRef-34"", ""SPDXRef-38"", ""SPDXRef-15"", ""SPDXRef-25"", ""SPDXRef-35"", ""SPDXRef-31"", ""SPDXRef-56"", ""SPDXRef-66"", ""SPDXRef-68"", ""SPDXRef-53"", ""SPDXRef-55"", ""SPDXRef-33"", ""SPDXRef-62"", ""SPDXRef-67"", ""SPDXRef-47"", ""SPDXRef-40"", ""SPDXRef-60"", ""SPDXRef-9"", ""SPDXRef-20"", ""SPDXRef-46"", ""SPDXRef-28"", ""SPDXRef-29"", ""SPDXRef-61"", ""SPDXRef-24"", ""SPDXRef-44"", ""SPDXRef-16"", ""SPDXRef-39"", ""SPDXRef-51"", ""SPDXRef-57"", ""SPDXRef-13"", ""SPDXRef-59"", ""SPDXRef-22"", ""SPDXRef-17"", ""SPDXRef-69"", ""SPDXRef-14"", ""SPDXRef-21"", ""SPDXRef-11"", ""SPDXRef-32"", ""SPDXRef-18"", ""SPDXRef-19"", ""SPDXRef-36"", ""SPDXRef-42"", ""SPDXRef-27"", ""SPDXRef-58"", ""SPDXRef-54"", ""SPDXRef-50"", ""SPDXRef-64"", ""SPDXRef-34"", ""SPDXRef-38"", ""SPDXRef-15"", ""SPDXRef-25"", ""SPDXRef-35"", ""SPDXRef-31"", ""SPDXRef-56"", ""SPDXRef-66"", ""SPDXRef-68"", ""SPDXRef-53"", ""SPDXRef-55"", ""SPDXRef-33"", ""SPDXRef-62"", ""SPDXRef-67"", ""SPDXRef-47"", ""SPDXRef-40"", ""SPDX";
"Ref-60"", ""SPDXRef-9"", ""SPDXRef-20"", ""SPDXRef-46"", ""SPDXRef-23"", ""SPDXRef-28"", ""SPDXRef-29"", ""SPDXRef-61"", ""SPDXRef-24"", ""SPDXRef-44"", ""SPDXRef-16"", ""SPDXRef-39"", ""SPDXRef-51"", ""SPDXRef-57"", ""SPDXRef-13"", ""SPDXRef-59"", ""SPDXRef-22"", ""SPDXRef-17"", ""SPDXRef-69"", ""SPDXRef-14"", ""SPDXRef-21"", ""SPDXRef-11"", ""SPDXRef-32"", ""SPDXRef-18"", ""SPDXRef-19"", ""SPDXRef-36"", ""SPDXRef-42"", ""SPDXRef-27"", ""SPDXRef-58"", ""SPDXRef-54"", ""SPDXRef-50"", ""SPDXRef-64"", ""SPDXRef-34"", ""SPDXRef-38"", ""SPDXRef-15"", ""SPDXRef-25"", ""SPDXRef-35"", ""SPDXRef-31"", ""SPDXRef-56"", ""SPDXRef-66"", ""SPDXRef-68"", ""SPDXRef-53"", ""SPDXRef-55"", ""SPDXRef-33"", ""SPDXRef-62"", ""SPDXRef-67"", ""SPDXRef-47"", ""SPDXRef-40"", ""SPDXRef-60"", ""SPDXRef-9"", ""SPDXRef-20"", ""SPDXRef-46"", ""SPDXRef-23"", ""SPDXRef-43"", ""SPDXRef-28"", ""SPDXRef-29"", ""SPDXRef-61"", ""SPDXRef-24"", ""SPDXRef-44"", ""SPDXRef-16"", ""SPDXRef-39"", ""SPDXRef-51"", ""SPDXRef-57"", ""SPDXRef-13"", ""SPDXRef-59"", ""SPDXRef-22"", ""SPDXRef-17"", ""SPDXRef-69"", ""SPDXRef-14"", ""SPDXRef-21"", ""SPDXRef-11"", ""SPDXRef-32"", ""SPDXRef-18"", ""SPDXRef-19"", ""SPDXRef-36"", ""SPDXRef-42"", ""SPDXRef-27"", ""SPDXRef-58"", ""SPDXRef-54"", ""SPDXRef-50"", ""SPDXRef-64"", ""SPDXRef-34"", ""SPDXRef-38"", ""SPDXRef-15"", ""SPDXRef-25"", ""SPDXRef-35"", ""SPDXRef-31"", ""SPDXRef-56"", ""SPDXRef-66"", ""SPDXRef-68"", ""SPDXRef-53"", ""SPDXRef-55"", ""SPDXRef-33"", ""SPDXRef-62"", ""SPDXRef-67"", ""SPDXRef-47"", ""SPDXRef-40"", ""SPDXRef-60"", ""SPDXRef-9"", ""SPDXRef-20"", ""SPDXRef-46"", ""SPDXRef-23"", ""SPDXRef-43"", ""SPDXRef-52"", ""SPDXRef-28"", ""SPDXRef-29"", ""SPDXRef-61"", ""SPDXRef-24"", ""SPDXRef-44"", ""SPDXRef-16"", ""SPDXRef-39"", ""SPDXRef-51"", ""SPDXRef-57"", ""SPDXRef-13"", ""SPDXRef-59"", ""SPDXRef-22"", ""SPDXRef-17"", ""SPDXRef-69"", ""SPDXRef-14"", ""SPDXRef-21"", ""SPDXRef-11"", ""SPDXRef-32"", ""SPDXRef-18"", ""SPDXRef-19"", ""SPDXRef-36"", ""SPDXRef-42"", ""SPDXRef-27"", ""SPDXRef-58"", ""SPDXRef-54"", ""SPDXRef-50"", ""SPDXRef-64"", ""SPDXRef-34"", ""SPDXRef-38"", ""SPDXRef-15"", ""SPDXRef-25"", ""SPDXRef-35"", ""SPDXRef-31"", ""SPDXRef-56"", ""SPDXRef-66"", ""SPDXRef-68"", ""SPDXRef-53"", ""SPDXRef-55"", ""SPDXRef-33"", ""SPDXR";
"ef-62"", ""SPDXRef-67"", ""SPDXRef-47"", ""SPDXRef-40"", ""SPDXRef-60"", ""SPDXRef-9"", ""SPDXRef-20"", ""SPDXRef-46"", ""SPDXRef-23"", ""SPDXRef-43"", ""SPDXRef-52"", ""SPDXRef-65"", ""SPDXRef-28"", ""SPDXRef-29"", ""SPDXRef-61"", ""SPDXRef-24"", ""SPDXRef-44"", ""SPDXRef-16"", ""SPDXRef-39"", ""SPDXRef-51"", ""SPDXRef-57"", ""SPDXRef-13"", ""SPDXRef-59"", ""SPDXRef-22"", ""SPDXRef-17"", ""SPDXRef-69"", ""SPDXRef-14"", ""SPDXRef-21"", ""SPDXRef-11"", ""SPDXRef-32"", ""SPDXRef-18"", ""SPDXRef-19"", ""SPDXRef-36"", ""SPDXRef-42"", ""SPDXRef-27"", ""SPDXRef-58"", ""SPDXRef-54"", ""SPDXRef-50"", ""SPDXRef-64"", ""SPDXRef-34"", ""SPDXRef-38"", ""SPDXRef-15"", ""SPDXRef-25"", ""SPDXRef-35"", ""SPDXRef-31"", ""SPDXRef-56"", ""SPDXRef-66"", ""SPDXRef-68"", ""SPDXRef-53"", ""SPDXRef-55"", ""SPDXRef-33"", ""SPDXRef-62"", ""SPDXRef-67"", ""SPDXRef-47"", ""SPDXRef-40"", ""SPDXRef-60"", ""SPDXRef-9"", ""SPDXRef-20"", ""SPDXRef-46"", ""SPDXRef-23"", ""SPDXRef-43"", ""SPDXRef-52"", ""SPDXRef-65"", ""SPDXRef-10"", ""SPDXRef-28"", ""SPDXRef-29"", ""SPDXRef-61"", ""SPDXRef-24"", ""SPDXRef-44"", ""SPDXRef-16"", ""SPDXRef-39"", ""SPDXRef-51"", ""SPDXRef-57"", ""SPDXRef-13"", ""SPDXRef-59"", ""SPDXRef-22"", ""SPDXRef-17"", ""SPDXRef-69"", ""SPDXRef-14"", ""SPDXRef-21"", ""SPDXRef-11"", ""SPDXRef-32"", ""SPDXRef-18"", ""SPDXRef-19"", ""SPDXRef-36"", ""SPDXRef-42"", ""SPDXRef-27"", ""SPDXRef-58"", ""SPDXRef-54"", ""SPDXRef-50"", ""SPDXRef-64"", ""SPDXRef-34"", ""SPDXRef-38"", ""SPDXRef-15"", ""SPDXRef-25"", ""SPDXRef-35"", ""SPDXRef-31"", ""SPDXRef-56"", ""SPDXRef-66"", ""SPDXRef-68"", ""SPDXRef-53"", ""SPDXRef-55"", ""SPDXRef-33"", ""SPDXRef-62"", ""SPDXRef-67"", ""SPDXRef-47"", ""SPDXRef-40"", ""SPDXRef-60"", ""SPDXRef-9"", ""SPDXRef-20"", ""SPDXRef-46"", ""SPDXRef-23"", ""SPDXRef-43"", ""SPDXRef-52"", ""SPDXRef-65"", ""SPDXRef-10"", ""SPDXRef-41"", ""SPDXRef-28"", ""SPDXRef-29"", ""SPDXRef-61"", ""SPDXRef-24"", ""SPDXRef-44"", ""SPDXRef-16"", ""SPDXRef-39"", ""SPDXRef-51"", ""SPDXRef-57"", ""SPDXRef-13"", ""SPDXRef-59"", ""SPDXRef-22"", ""SPDXRef-17"", ""SPDXRef-69"", ""SPDXRef-14"", ""SPDXRef-21"", ""SPDXRef-11"", ""SPDXRef-32"", ""SPDXRef-18"", ""SPDXRef-19"", ""SPDXRef-36"", ""SPDXRef-42"", ""SPDXRef-27"", ""SPDXRef-58"", ""SPDXRef-54"", ""SPDXRef-50"", ""SPDXRe";
"f-64"", ""SPDXRef-34"", ""SPDXRef-38"", ""SPDXRef-15"", ""SPDXRef-25"", ""SPDXRef-35"", ""SPDXRef-31"", ""SPDXRef-56"", ""SPDXRef-66"", ""SPDXRef-68"", ""SPDXRef-53"", ""SPDXRef-55"", ""SPDXRef-33"", ""SPDXRef-62"", ""SPDXRef-67"", ""SPDXRef-47"", ""SPDXRef-40"", ""SPDXRef-60"", ""SPDXRef-9"", ""SPDXRef-20"", ""SPDXRef-46"", ""SPDXRef-23"", ""SPDXRef-43"", ""SPDXRef-52"", ""SPDXRef-65"", ""SPDXRef-10"", ""SPDXRef-41"", ""SPDXRef-12"", ""SPDXRef-28"", ""SPDXRef-29"", ""SPDXRef-61"", ""SPDXRef-24"", ""SPDXRef-44"", ""SPDXRef-16"", ""SPDXRef-39"", ""SPDXRef-51"", ""SPDXRef-57"", ""SPDXRef-13"", ""SPDXRef-59"", ""SPDXRef-22"", ""SPDXRef-17"", ""SPDXRef-69"", ""SPDXRef-14"", ""SPDXRef-21"", ""SPDXRef-11"", ""SPDXRef-32"", ""SPDXRef-18"", ""SPDXRef-19"", ""SPDXRef-36"", ""SPDXRef-42"", ""SPDXRef-27"", ""SPDXRef-58"", ""SPDXRef-54"", ""SPDXRef-50"", ""SPDXRef-64"", ""SPDXRef-34"", ""SPDXRef-38"", ""SPDXRef-15"", ""SPDXRef-25"", ""SPDXRef-35"", ""SPDXRef-31"", ""SPDXRef-56"", ""SPDXRef-66"", ""SPDXRef-68"", ""SPDXRef-53"", ""SPDXRef-55"", ""SPDXRef-33"", ""SPDXRef-62"", ""SPDXRef-67"", ""SPDXRef-47"", ""SPDXRef-40"", ""SPDXRef-60"", ""SPDXRef-9"", ""SPDXRef-20"", ""SPDXRef-46"", ""SPDXRef-23"", ""SPDXRef-43"", ""SPDXRef-52"", ""SPDXRef-65"", ""SPDXRef-10"", ""SPDXRef-41"", ""SPDXRef-12"", ""SPDXRef-48"", ""SPDXRef-28"", ""SPDXRef-29"", ""SPDXRef-61"", ""SPDXRef-24"", ""SPDXRef-44"", ""SPDXRef-16"", ""SPDXRef-39"", ""SPDXRef-51"", ""SPDXRef-57"", ""SPDXRef-13"", ""SPDXRef-59"", ""SPDXRef-22"", ""SPDXRef-17"", ""SPDXRef-69"", ""SPDXRef-14"", ""SPDXRef-21"", ""SPDXRef-11"", ""SPDXRef-32"", ""SPDXRef-18"", ""SPDXRef-19"", ""SPDXRef-36"", ""SPDXRef-42"", ""SPDXRef-27"", ""SPDXRef-58"", ""SPDXRef-54"", ""SPDXRef-50"", ""SPDXRef-64"", ""SPDXRef-34"", ""SPDXRef-38"", ""SPDXRef-15"", ""SPDXRef-25"", ""SPDXRef-35"", ""SPDXRef-31"", ""SPDXRef-56"", ""SPDXRef-66"", ""SPDXRef-68"", ""SPDXRef-53"", ""SPDXRef-55"", ""SPDXRef-33"", ""SPDXRef-62"", ""SPDXRef-67"", ""SPDXRef-47"", ""SPDXRef-40"", ""SPDXRef-60"", ""SPDXRef-9"", ""SPDXRef-20"", ""SPDXRef-46"", ""SPDXRef-23"", ""SPDXRef-43"", ""SPDXRef-52"", ""SPDXRef-65"", ""SPDXRef-10"", ""SPDXRef-41"", ""SPDXRef-12"", ""SPDXRef-48"", ""SPDXRef-49"", ""SPDXRef-28"", ""SPDXRef-29"", ""SPDXRef-61"", ""SPDXRef-24"", ""SPDXRef";
"-44"", ""SPDXRef-16"", ""SPDXRef-39"", ""SPDXRef-51"", ""SPDXRef-57"", ""SPDXRef-13"", ""SPDXRef-59"", ""SPDXRef-22"", ""SPDXRef-17"", ""SPDXRef-69"", ""SPDXRef-14"", ""SPDXRef-21"", ""SPDXRef-11"", ""SPDXRef-32"", ""SPDXRef-18"", ""SPDXRef-19"", ""SPDXRef-36"", ""SPDXRef-42"", ""SPDXRef-27"", ""SPDXRef-58"", ""SPDXRef-54"", ""SPDXRef-50"", ""SPDXRef-64"", ""SPDXRef-34"", ""SPDXRef-38"", ""SPDXRef-15"", ""SPDXRef-25"", ""SPDXRef-35"", ""SPDXRef-31"", ""SPDXRef-56"", ""SPDXRef-66"", ""SPDXRef-68"", ""SPDXRef-53"", ""SPDXRef-55"", ""SPDXRef-33"", ""SPDXRef-62"", ""SPDXRef-67"", ""SPDXRef-47"", ""SPDXRef-40"", ""SPDXRef-60"", ""SPDXRef-9"", ""SPDXRef-20"", ""SPDXRef-46"", ""SPDXRef-23"", ""SPDXRef-43"", ""SPDXRef-52"", ""SPDXRef-65"", ""SPDXRef-10"", ""SPDXRef-41"", ""SPDXRef-12"", ""SPDXRef-48"", ""SPDXRef-49"", ""SPDXRef-30"", ""SPDXRef-28"", ""SPDXRef-29"", ""SPDXRef-61"", ""SPDXRef-24"", ""SPDXRef-44"", ""SPDXRef-16"", ""SPDXRef-39"", ""SPDXRef-51"", ""SPDXRef-57"", ""SPDXRef-13"", ""SPDXRef-59"", ""SPDXRef-22"", ""SPDXRef-17"", ""SPDXRef-69"", ""SPDXRef-14"", ""SPDXRef-21"", ""SPDXRef-11"", ""SPDXRef-32"", ""SPDXRef-18"", ""SPDXRef-19"", ""SPDXRef-36"", ""SPDXRef-42"", ""SPDXRef-27"", ""SPDXRef-58"", ""SPDXRef-54"", ""SPDXRef-50"", ""SPDXRef-64"", ""SPDXRef-34"", ""SPDXRef-38"", ""SPDXRef-15"", ""SPDXRef-25"", ""SPDXRef-35"", ""SPDXRef-31"", ""SPDXRef-56"", ""SPDXRef-66"", ""SPDXRef-68"", ""SPDXRef-53"", ""SPDXRef-55"", ""SPDXRef-33"", ""SPDXRef-62"", ""SPDXRef-67"", ""SPDXRef-47"", ""SPDXRef-40"", ""SPDXRef-60"", ""SPDXRef-9"", ""SPDXRef-20"", ""SPDXRef-46"", ""SPDXRef-23"", ""SPDXRef-43"", ""SPDXRef-52"", ""SPDXRef-65"", ""SPDXRef-10"", ""SPDXRef-41"", ""SPDXRef-12"", ""SPDXRef-48"", ""SPDXRef-49"", ""SPDXRef-30"", ""SPDXRef-26"", ""SPDXRef-28"", ""SPDXRef-29"", ""SPDXRef-61"", ""SPDXRef-24"", ""SPDXRef-44"", ""SPDXRef-16"", ""SPDXRef-39"", ""SPDXRef-51"", ""SPDXRef-57"", ""SPDXRef-13"", ""SPDXRef-59"", ""SPDXRef-22"", ""SPDXRef-17"", ""SPDXRef-69"", ""SPDXRef-14"", ""SPDXRef-21"", ""SPDXRef-11"", ""SPDXRef-32"", ""SPDXRef-18"", ""SPDXRef-19"", ""SPDXRef-36"", ""SPDXRef-42"", ""SPDXRef-27"", ""SPDXRef-58"", ""SPDXRef-54"", ""SPDXRef-50"", ""SPDXRef-64"", ""SPDXRef-34"", ""SPDXRef-38"", ""SPDXRef-15"", ""SPDXRef-25"", ""SPDXRef-35"", ""SPDXRef";
"-31"", ""SPDXRef-56"", ""SPDXRef-66"", ""SPDXRef-68"", ""SPDXRef-53"", ""SPDXRef-55"", ""SPDXRef-33"", ""SPDXRef-62"", ""SPDXRef-67"", ""SPDXRef-47"", ""SPDXRef-40"", ""SPDXRef-60"", ""SPDXRef-9"", ""SPDXRef-20"", ""SPDXRef-46"", ""SPDXRef-23"", ""SPDXRef-43"", ""SPDXRef-52"", ""SPDXRef-65"", ""SPDXRef-10"", ""SPDXRef-41"", ""SPDXRef-12"", ""SPDXRef-48"", ""SPDXRef-49"", ""SPDXRef-30"", ""SPDXRef-26"", ""SPDXRef-63"", ""SPDXRef-28"", ""SPDXRef-29"", ""SPDXRef-61"", ""SPDXRef-24"", ""SPDXRef-44"", ""SPDXRef-16"", ""SPDXRef-39"", ""SPDXRef-51"", ""SPDXRef-57"", ""SPDXRef-13"", ""SPDXRef-59"", ""SPDXRef-22"", ""SPDXRef-17"", ""SPDXRef-69"", ""SPDXRef-14"", ""SPDXRef-21"", ""SPDXRef-11"", ""SPDXRef-32"", ""SPDXRef-18"", ""SPDXRef-19"", ""SPDXRef-36"", ""SPDXRef-42"", ""SPDXRef-27"", ""SPDXRef-58"", ""SPDXRef-54"", ""SPDXRef-50"", ""SPDXRef-64"", ""SPDXRef-34"", ""SPDXRef-38"", ""SPDXRef-15"", ""SPDXRef-25"", ""SPDXRef-35"", ""SPDXRef-31"", ""SPDXRef-56"", ""SPDXRef-66"", ""SPDXRef-68"", ""SPDXRef-53"", ""SPDXRef-55"", ""SPDXRef-33"", ""SPDXRef-62"", ""SPDXRef-67"", ""SPDXRef-47"", ""SPDXRef-40"", ""SPDXRef-60"", ""SPDXRef-9"", ""SPDXRef-20"", ""SPDXRef-46"", ""SPDXRef-23"", ""SPDXRef-43"", ""SPDXRef-52"", ""SPDXRef-65"", ""SPDXRef-10"", ""SPDXRef-41"", ""SPDXRef-12"", ""SPDXRef-48"", ""SPDXRef-49"", ""SPDXRef-30"", ""SPDXRef-26"", ""SPDXRef-63"", ""SPDXRef-45"", ""SPDXRef-28"", ""SPDXRef-29"", ""SPDXRef-61"", ""SPDXRef-24"", ""SPDXRef-44"", ""SPDXRef-16"", ""SPDXRef-39"", ""SPDXRef-51"", ""SPDXRef-57"", ""SPDXRef-13"", ""SPDXRef-59"", ""SPDXRef-22"", ""SPDXRef-17"", ""SPDXRef-69"", ""SPDXRef-14"", ""SPDXRef-21"", ""SPDXRef-11"", ""SPDXRef-32"", ""SPDXRef-18"", ""SPDXRef-19"", ""SPDXRef-36"", ""SPDXRef-42"", ""SPDXRef-27"", ""SPDXRef-58"", ""SPDXRef-54"", ""SPDXRef-50"", ""SPDXRef-64"", ""SPDXRef-34"", ""SPDXRef-38"", ""SPDXRef-15"", ""SPDXRef-25"", ""SPDXRef-35"", ""SPDXRef-31"", ""SPDXRef-56"", ""SPDXRef-66"", ""SPDXRef-68"", ""SPDXRef-53"", ""SPDXRef-55"", ""SPDXRef-33"", ""SPDXRef-62"", ""SPDXRef-67"", ""SPDXRef-47"", ""SPDXRef-40"", ""SPDXRef-60"", ""SPDXRef-9"", ""SPDXRef-20"", ""SPDXRef-46"", ""SPDXRef-23"", ""SPDXRef-43"", ""SPDXRef-52"", ""SPDXRef-65"", ""SPDXRef-10"", ""SPDXRef-41"", ""SPDXRef-12"", ""SPDXRef-48"", ""SPDXRef-49"", ""SPDXRef-";
"30"", ""SPDXRef-26"", ""SPDXRef-63"", ""SPDXRef-45"", ""SPDXRef-37"", ""SPDXRef-28"", ""SPDXRef-29"", ""SPDXRef-61"", ""SPDXRef-24"", ""SPDXRef-44"", ""SPDXRef-16"", ""SPDXRef-39"", ""SPDXRef-51"", ""SPDXRef-57"", ""SPDXRef-13"", ""SPDXRef-59"", ""SPDXRef-22"", ""SPDXRef-17"", ""SPDXRef-69"", ""SPDXRef-14"", ""SPDXRef-21"", ""SPDXRef-11"", ""SPDXRef-32"", ""SPDXRef-18"", ""SPDXRef-19"", ""SPDXRef-36"", ""SPDXRef-42"", ""SPDXRef-27"", ""SPDXRef-58"", ""SPDXRef-54"", ""SPDXRef-50"", ""SPDXRef-64"", ""SPDXRef-34"", ""SPDXRef-38"", ""SPDXRef-15"", ""SPDXRef-25"", ""SPDXRef-35"", ""SPDXRef-31"", ""SPDXRef-56"", ""SPDXRef-66"", ""SPDXRef-68"", ""SPDXRef-53"", ""SPDXRef-55"", ""SPDXRef-33"", ""SPDXRef-62"", ""SPDXRef-67"", ""SPDXRef-47"", ""SPDXRef-40"", ""SPDXRef-60"", ""SPDXRef-9"", ""SPDXRef-20"", ""SPDXRef-46"", ""SPDXRef-23"", ""SPDXRef-43"", ""SPDXRef-52"", ""SPDXRef-65"", ""SPDXRef-10"", ""SPDXRef-41"", ""SPDXRef-12"", ""SPDXRef-48"", ""SPDXRef-49"", ""SPDXRef-30"", ""SPDXRef-26"", ""SPDXRef-63"", ""SPDXRef-45"", ""SPDXRef-37"", ""SPDXRef-28"", ""SPDXRef-29"", ""SPDXRef-61"", ""SPDXRef-24"", ""SPDXRef-44"", ""SPDXRef-16"", ""SPDXRef-39"", ""SPDXRef-51"", ""SPDXRef-57"", ""SPDXRef-13"", ""SPDXRef-59"", ""SPDXRef-22"", ""SPDXRef-17"", ""SPDXRef-69"", ""SPDXRef-14"", ""SPDXRef-21"", ""SPDXRef-11"", ""SPDXRef-32"", ""SPDXRef-18"", ""SPDXRef-19"", ""SPDXRef-36"", ""SPDXRef-42"", ""SPDXRef-27"", ""SPDXRef-58"", ""SPDXRef-54"", ""SPDXRef-50"", ""SPDXRef-64"", ""SPDXRef-34"", ""SPDXRef-38"", ""SPDXRef-15"", ""SPDXRef-25"", ""SPDXRef-35"", ""SPDXRef-31"", ""SPDXRef-56"", ""SPDXRef-66"", ""SPDXRef-68"", ""SPDXRef-53"", ""SPDXRef-55"", ""SPDXRef-33"", ""SPDXRef-62"", ""SPDXRef-67"", ""SPDXRef-47"", ""SPDXRef-40"", ""SPDXRef-60"", ""SPDXRef-9"", ""SPDXRef-20"", ""SPDXRef-46"", ""SPDXRef-23"", ""SPDXRef-43"", ""SPDXRef-52"", ""SPDXRef-65"", ""SPDXRef-10"", ""SPDXRef-41"", ""SPDXRef-12"", ""SPDXRef-48"", ""SPDXRef-49"", ""SPDXRef-30"", ""SPDXRef-26"", ""SPDXRef-63"", ""SPDXRef-45"", ""SPDXRef-37"", ""SPDXRef-28"", ""SPDXRef-29"", ""SPDXRef-61"", ""SPDXRef-24"", ""SPDXRef-44"", ""SPDXRef-16"", ""SPDXRef-39"", ""SPDXRef-51"", ""SPDXRef-57"", ""SPDXRef-13"", ""SPDXRef-59"", ""SPDXRef-22"", ""SPDXRef-17"", ""SPDXRef-69"", ""SPDXRef-14"", ""SPDXRef-21"", ""SPDXRef-";
"11"", ""SPDXRef-32"", ""SPDXRef-18"", ""SPDXRef-19"", ""SPDXRef-36"", ""SPDXRef-42"", ""SPDXRef-27"", ""SPDXRef-58"", ""SPDXRef-54"", ""SPDXRef-50"", ""SPDXRef-64"", ""SPDXRef-34"", ""SPDXRef-38"", ""SPDXRef-15"", ""SPDXRef-25"", ""SPDXRef-35"", ""SPDXRef-31"", ""SPDXRef-56"", ""SPDXRef-66"", ""SPDXRef-68"", ""SPDXRef-53"", ""SPDXRef-55"", ""SPDXRef-33"", ""SPDXRef-62"", ""SPDXRef-67"", ""SPDXRef-47"", ""SPDXRef-40"", ""SPDXRef-60"", ""SPDXRef-9"", ""SPDXRef-20"", ""SPDXRef-46"", ""SPDXRef-23"", ""SPDXRef-43"", ""SPDXRef-52"", ""SPDXRef-65"", ""SPDXRef-10"", ""SPDXRef-41"", ""SPDXRef-12"", ""SPDXRef-48"", ""SPDXRef-49"", ""SPDXRef-30"", ""SPDXRef-26"", ""SPDXRef-63"", ""SPDXRef-45"", ""SPDXRef-37"", ""SPDXRef-28"", ""SPDXRef-29"", ""SPDXRef-61"", ""SPDXRef-24"", ""SPDXRef-44"", ""SPDXRef-16"", ""SPDXRef-39"", ""SPDXRef-51"", ""SPDXRef-57"", ""SPDXRef-13"", ""SPDXRef-59"", ""SPDXRef-22"", ""SPDXRef-17"", ""SPDXRef-69"", ""SPDXRef-14"", ""SPDXRef-21"", ""SPDXRef-11"", ""SPDXRef-32"", ""SPDXRef-18"", ""SPDXRef-19"", ""SPDXRef-36"", ""SPDXRef-42"", ""SPDXRef-27"", ""SPDXRef-58"", ""SPDXRef-54"", ""SPDXRef-50"", ""SPDXRef-64"", ""SPDXRef-34"", ""SPDXRef-38"", ""SPDXRef-15"", ""SPDXRef-25"", ""SPDXRef-35"", ""SPDXRef-31"", ""SPDXRef-56"", ""SPDXRef-66"", ""SPDXRef-68"", ""SPDXRef-53"", ""SPDXRef-55"", ""SPDXRef-33"", ""SPDXRef-62"", ""SPDXRef-67"", ""SPDXRef-47"", ""SPDXRef-40"", ""SPDXRef-60"", ""SPDXRef-9"", ""SPDXRef-20"", ""SPDXRef-46"", ""SPDXRef-23"", ""SPDXRef-43"", ""SPDXRef-52"", ""SPDXRef-65"", ""SPDXRef-10"", ""SPDXRef-41"", ""SPDXRef-12"", ""SPDXRef-48"", ""SPDXRef-49"", ""SPDXRef-30"", ""SPDXRef-26"", ""SPDXRef-63"", ""SPDXRef-45"", ""SPDXRef-37"", ""SPDXRef-28"", ""SPDXRef-29"", ""SPDXRef-61"", ""SPDXRef-24"", ""SPDXRef-44"", ""SPDXRef-16"", ""SPDXRef-39"", ""SPDXRef-51"", ""SPDXRef-57"", ""SPDXRef-13"", ""SPDXRef-59"", ""SPDXRef-22"", ""SPDXRef-17"", ""SPDXRef-69"", ""SPDXRef-14"", ""SPDXRef-21"", ""SPDXRef-11"", ""SPDXRef-32"", ""SPDXRef-18"", ""SPDXRef-19"", ""SPDXRef-36"", ""SPDXRef-42"", ""SPDXRef-27"", ""SPDXRef-58"", ""SPDXRef-54"", ""SPDXRef-50"", ""SPDXRef-64"", ""SPDXRef-34"", ""SPDXRef-38"", ""SPDXRef-15"", ""SPDXRef-25"", ""SPDXRef-35"", ""SPDXRef-31"", ""SPDXRef-56"", ""SPDXRef-66"", ""SPDXRef-68"", ""SPDXRef-53"", ""SPDXRef-";
"55"", ""SPDXRef-33"", ""SPDXRef-62"", ""SPDXRef-67"", ""SPDXRef-47"", ""SPDXRef-40"", ""SPDXRef-60"", ""SPDXRef-9"", ""SPDXRef-20"", ""SPDXRef-46"", ""SPDXRef-23"", ""SPDXRef-43"", ""SPDXRef-52"", ""SPDXRef-65"", ""SPDXRef-10"", ""SPDXRef-41"", ""SPDXRef-12"", ""SPDXRef-48"", ""SPDXRef-49"", ""SPDXRef-30"", ""SPDXRef-26"", ""SPDXRef-63"", ""SPDXRef-45"", ""SPDXRef-37"", ""SPDXRef-28"", ""SPDXRef-29"", ""SPDXRef-61"", ""SPDXRef-24"", ""SPDXRef-44"", ""SPDXRef-16"", ""SPDXRef-39"", ""SPDXRef-51"", ""SPDXRef-57"", ""SPDXRef-13"", ""SPDXRef-59"", ""SPDXRef-22"", ""SPDXRef-17"", ""SPDXRef-69"", ""SPDXRef-14"", ""SPDXRef-21"", ""SPDXRef-11"", ""SPDXRef-32"", ""SPDXRef-18"", ""SPDXRef-19"", ""SPDXRef-36"", ""SPDXRef-42"", ""SPDXRef-27"", ""SPDXRef-58"", ""SPDXRef-54"", ""SPDXRef-50"", ""SPDXRef-64"", ""SPDXRef-34"", ""SPDXRef-38"", ""SPDXRef-15"", ""SPDXRef-25"", ""SPDXRef-35"", ""SPDXRef-31"", ""SPDXRef-56"", ""SPDXRef-66"", ""SPDXRef-68"", ""SPDXRef-53"", ""SPDXRef-55"", ""SPDXRef-33"", ""SPDXRef-62"", ""SPDXRef-67"", ""SPDXRef-47"", ""SPDXRef-40"", ""SPDXRef-60"", ""SPDXRef-9"", ""SPDXRef-20"", ""SPDXRef-46"", ""SPDXRef-23"", ""SPDXRef-43"", ""SPDXRef-52"", ""SPDXRef-65"", ""SPDXRef-10"", ""SPDXRef-41"", ""SPDXRef-12"", ""SPDXRef-48"", ""SPDXRef-49"", ""SPDXRef-30"", ""SPDXRef-26"", ""SPDXRef-63"", ""SPDXRef-45"", ""SPDXRef-37"", ""SPDXRef-28"", ""SPDXRef-29"", ""SPDXRef-61"", ""SPDXRef-24"", ""SPDXRef-44"", ""SPDXRef-16"", ""SPDXRef-39"", ""SPDXRef-51"", ""SPDXRef-57"", ""SPDXRef-13"", ""SPDXRef-59"", ""SPDXRef-22"", ""SPDXRef-17"", ""SPDXRef-69"", ""SPDXRef-14"", ""SPDXRef-21"", ""SPDXRef-11"", ""SPDXRef-32"", ""SPDXRef-18"", ""SPDXRef-19"", ""SPDXRef-36"", ""SPDXRef-42"", ""SPDXRef-27"", ""SPDXRef-58"", ""SPDXRef-54"", ""SPDXRef-50"", ""SPDXRef-64"", ""SPDXRef-34"", ""SPDXRef-38"", ""SPDXRef-15"", ""SPDXRef-25"", ""SPDXRef-35"", ""SPDXRef-31"", ""SPDXRef-56"", ""SPDXRef-66"", ""SPDXRef-68"", ""SPDXRef-53"", ""SPDXRef-55"", ""SPDXRef-33"", ""SPDXRef-62"", ""SPDXRef-67"", ""SPDXRef-47"", ""SPDXRef-40"", ""SPDXRef-60"", ""SPDXRef-9"", ""SPDXRef-20"", ""SPDXRef-46"", ""SPDXRef-23"", ""SPDXRef-43"", ""SPDXRef-52"", ""SPDXRef-65"", ""SPDXRef-10"", ""SPDXRef-41"", ""SPDXRef-12"", ""SPDXRef-48"", ""SPDXRef-49"", ""SPDXRef-30"", ""SPDXRef-26"", ""SPDXRef-6";
"3"", ""SPDXRef-45"", ""SPDXRef-37"", ""SPDXRef-28"", ""SPDXRef-29"", ""SPDXRef-61"", ""SPDXRef-24"", ""SPDXRef-44"", ""SPDXRef-16"", ""SPDXRef-39"", ""SPDXRef-51"", ""SPDXRef-57"", ""SPDXRef-13"", ""SPDXRef-59"", ""SPDXRef-22"", ""SPDXRef-17"", ""SPDXRef-69"", ""SPDXRef-14"", ""SPDXRef-21"", ""SPDXRef-11"", ""SPDXRef-32"", ""SPDXRef-18"", ""SPDXRef-19"", ""SPDXRef-36"", ""SPDXRef-42"", ""SPDXRef-27"", ""SPDXRef-58"", ""SPDXRef-54"", ""SPDXRef-50"", ""SPDXRef-64"", ""SPDXRef-34"", ""SPDXRef-38"", ""SPDXRef-15"", ""SPDXRef-25"", ""SPDXRef-35"", ""SPDXRef-31"", ""SPDXRef-56"", ""SPDXRef-66"", ""SPDXRef-68"", ""SPDXRef-53"", ""SPDXRef-55"", ""SPDXRef-33"", ""SPDXRef-62"", ""SPDXRef-67"", ""SPDXRef-47"", ""SPDXRef-40"", ""SPDXRef-60"", ""SPDXRef-9"", ""SPDXRef-20"", ""SPDXRef-46"", ""SPDXRef-23"", ""SPDXRef-43"", ""SPDXRef-52"", ""SPDXRef-65"", ""SPDXRef-10"", ""SPDXRef-41"", ""SPDXRef-12"", ""SPDXRef-48"", ""SPDXRef-49"", ""SPDXRef-30"", ""SPDXRef-26"", ""SPDXRef-63"", ""SPDXRef-45"", ""SPDXRef-37"" ],
    ""summary"" : ""SPDX Command Line Tools using the Spdx-Java-Library"",
    ""supplier"" : ""Organization: SPDX"",
    ""versionInfo"" : ""1.1.8-SNAPSHOT""
  }, {
    ""SPDXID"" : ""SPDXRef-3"",
    ""copyrightText"" : ""UNSPECIFIED"",
    ""description"" : ""Storage for SPDX documents utilizing Jackson Databind.\nThis store supports serializing and deserializing files in JSON, YAML and XML formats."",
    ""downloadLocation"" : ""NOASSERTION"",
    ""filesAnalyzed"" : false,
    ""homepage"" : ""http://spdx.org"",
    ""licenseConcluded"" : ""NOASSERTION"",
    ""licenseDeclared"" : ""Apache-2.0"",
    ""name"" : ""spdx-jackson-store"",
    ""originator"" : ""Organization:SPDX"",
    ""summary"" : ""Storage for SPDX documents utilizing Jackson Databind.\nThis store supports serializing and deserializing files in JSON, YAML and XML formats."",
    ""versionInfo"" : ""1.1.6""
  }, {
    ""SPDXID"" : ""SPDXRef-4"",
    ""copyrightText"" : ""UNSPECIFIED"",
    ""description"" : ""Commons XMLSchema is a light weight schema object model that can be used to manipulate or\n        generate XML schema."",
    ""downloadLocation"" : ""NOASSERTION"",
    ""filesAnalyzed"" : fal";
"se,
    ""licenseConcluded"" : ""NOASSERTION"",
    ""licenseDeclared"" : ""NOASSERTION"",
    ""name"" : ""XmlSchema Core"",
    ""summary"" : ""Commons XMLSchema is a light weight schema object model that can be used to manipulate or\n        generate XML schema.""
  }, {
    ""SPDXID"" : ""SPDXRef-5"",
    ""copyrightText"" : ""UNSPECIFIED"",
    ""description"" : ""Stores SPDX documents in Microsoft Excel formats.  Supports both XLS and XLSX file types."",
    ""downloadLocation"" : ""NOASSERTION"",
    ""filesAnalyzed"" : false,
    ""homepage"" : ""http://github.com/spdx/spdx-spreadsheet-store"",
    ""licenseConcluded"" : ""NOASSERTION"",
    ""licenseDeclared"" : ""Apache-2.0"",
    ""name"" : ""spdx-spreadsheet-store"",
    ""originator"" : ""Organization:SPDX"",
    ""summary"" : ""Stores SPDX documents in Microsoft Excel formats.  Supports both XLS and XLSX file types."",
    ""versionInfo"" : ""1.1.6""
  }, {
    ""SPDXID"" : ""SPDXRef-6"",
    ""copyrightText"" : ""UNSPECIFIED"",
    ""description"" : ""SPDX store that supports serializing and deserializing SPDX tag/value files."",
    ""downloadLocation"" : ""NOASSERTION"",
    ""filesAnalyzed"" : false,
    ""homepage"" : ""http://maven.apache.org"",
    ""licenseConcluded"" : ""NOASSERTION"",
    ""licenseDeclared"" : ""Apache-2.0"",
    ""name"" : ""spdx-tagvalue-store"",
    ""originator"" : ""Organization:SPDX"",
    ""summary"" : ""SPDX store that supports serializing and deserializing SPDX tag/value files."",
    ""versionInfo"" : ""1.1.6""
  }, {
    ""SPDXID"" : ""SPDXRef-0"",
    ""copyrightText"" : ""UNSPECIFIED"",
    ""description"" : ""JUnit is a unit testing framework for Java, created by Erich Gamma and Kent Beck."",
    ""downloadLocation"" : ""NOASSERTION"",
    ""filesAnalyzed"" : false,
    ""homepage"" : ""http://junit.org"",
    ""licenseConcluded"" : ""NOASSERTION"",
    ""licenseDeclared"" : ""EPL-1.0"",
    ""name"" : ""JUnit"",
    ""originator"" : ""Organization:JUnit"",
    ""summary"" : ""JUnit is a unit testing framework for Java, created by Erich Gamma and Kent Beck."",
    ""versionInfo"" : ""4.13.1""
  }, {
    ""SPDXID"" ";
": ""SPDXRef-1"",
    ""copyrightText"" : ""UNSPECIFIED"",
    ""description"" : ""Java library which implements the Java object model for SPDX and provides useful helper functions."",
    ""downloadLocation"" : ""NOASSERTION"",
    ""filesAnalyzed"" : false,
    ""homepage"" : ""https://github.com/spdx/Spdx-Java-Library"",
    ""licenseConcluded"" : ""NOASSERTION"",
    ""licenseDeclared"" : ""Apache-2.0"",
    ""name"" : ""java-spdx-library"",
    ""originator"" : ""Organization:SPDX"",
    ""summary"" : ""Java library which implements the Java object model for SPDX and provides useful helper functions."",
    ""versionInfo"" : ""1.1.6""
  }, {
    ""SPDXID"" : ""SPDXRef-2"",
    ""copyrightText"" : ""UNSPECIFIED"",
    ""description"" : ""This Java library implements an RDF store implementing the SPDX Java Library Storage Interface using an underlying RDF store."",
    ""downloadLocation"" : ""NOASSERTION"",
    ""filesAnalyzed"" : false,
    ""homepage"" : ""https://github.com/spdx/spdx-java-rdf-store"",
    ""licenseConcluded"" : ""NOASSERTION"",
    ""licenseDeclared"" : ""Apache-2.0"",
    ""name"" : ""spdx-rdf-store"",
    ""originator"" : ""Organization:SPDX"",
    ""summary"" : ""This Java library implements an RDF store implementing the SPDX Java Library Storage Interface using an underlying RDF store."",
    ""versionInfo"" : ""1.1.6""
  } ],
  ""files"" : [ {
    ""SPDXID"" : ""SPDXRef-9"",
    ""checksums"" : [ {
      ""algorithm"" : ""SHA1"",
      ""checksumValue"" : ""75ed20e7ec6452af57334a09123e7367745aeb29""
    } ],
    ""copyrightText"" : ""Copyright (c) 2020 Source Auditor Inc."",
    ""fileContributors"" : [ ""Gary O'Neall"" ],
    ""fileName"" : ""./src/main/java/org/spdx/tools/InvalidFileNameException.java"",
    ""fileTypes"" : [ ""SOURCE"" ],
    ""licenseComments"" : ""This file contains SPDX-License-Identifiers for Apache-2.0"",
    ""licenseConcluded"" : ""Apache-2.0"",
    ""licenseInfoInFiles"" : [ ""Apache-2.0"" ],
    ""noticeText"" : ""Licensed under the Apache License, Version 2.0 (the \""License\"");\n\t\t  you may not use this file except in compliance with the Lic";
"ense.\n\t\t  You may obtain a copy of the License at\n\t\t\n\t\t      http://www.apache.org/licenses/LICENSE-2.0\n\t\t\n\t\t  Unless required by applicable law or agreed to in writing, software\n\t\t  distributed under the License is distributed on an \""AS IS\"" BASIS,\n\t\t  WITHOUT WARRANTIES OR CONDITIONS OF ANY KIND, either express or implied.\n\t\t  See the License for the specific language governing permissions and\n\t\t  limitations under the License.""
  }, {
    ""SPDXID"" : ""SPDXRef-50"",
    ""checksums"" : [ {
      ""algorithm"" : ""SHA1"",
      ""checksumValue"" : ""a288e48e5d3f168d44ca6ac0b988fe870bee7356""
    } ],
    ""copyrightText"" : ""Copyright (c) 2020 Source Auditor Inc."",
    ""fileContributors"" : [ ""Gary O'Neall"" ],
    ""fileName"" : ""./src/main/java/org/spdx/tools/compare/AbstractFileCompareSheet.java"",
    ""fileTypes"" : [ ""SOURCE"" ],
    ""licenseConcluded"" : ""Apache-2.0"",
    ""licenseInfoInFiles"" : [ ""Apache-2.0"" ],
    ""noticeText"" : ""Licensed under the Apache License, Version 2.0 (the \""License\"");\n\t\t  you may not use this file except in compliance with the License.\n\t\t  You may obtain a copy of the License at\n\t\t\n\t\t      http://www.apache.org/licenses/LICENSE-2.0\n\t\t\n\t\t  Unless required by applicable law or agreed to in writing, software\n\t\t  distributed under the License is distributed on an \""AS IS\"" BASIS,\n\t\t  WITHOUT WARRANTIES OR CONDITIONS OF ANY KIND, either express or implied.\n\t\t  See the License for the specific language governing permissions and\n\t\t  limitations under the License.""
  }, {
    ""SPDXID"" : ""SPDXRef-51"",
    ""checksums"" : [ {
      ""algorithm"" : ""SHA1"",
      ""checksumValue"" : ""3984937747f7908fd3f6ce3688ce90c81df00b03""
    } ],
    ""copyrightText"" : ""Copyright (c) 2020 Source Auditor Inc."",
    ""fileContributors"" : [ ""Gary O'Neall"" ],
    ""fileName"" : ""./src/main/java/org/spdx/tools/compare/package-info.java"",
    ""fileTypes"" : [ ""SOURCE"" ],
    ""licenseComments"" : ""This file contains SPDX-License-Identifie";
"rs for (Apache-2.0 AND Apache-2.0)"",
    ""licenseConcluded"" : ""(Apache-2.0 AND Apache-2.0)"",
    ""licenseInfoInFiles"" : [ ""(Apache-2.0 AND Apache-2.0)"" ],
    ""noticeText"" : ""Licensed under the Apache License, Version 2.0 (the \""License\"");\n\t\t  you may not use this file except in compliance with the License.\n\t\t  You may obtain a copy of the License at\n\t\t\n\t\t      http://www.apache.org/licenses/LICENSE-2.0\n\t\t\n\t\t  Unless required by applicable law or agreed to in writing, software\n\t\t  distributed under the License is distributed on an \""AS IS\"" BASIS,\n\t\t  WITHOUT WARRANTIES OR CONDITIONS OF ANY KIND, either express or implied.\n\t\t  See the License for the specific language governing permissions and\n\t\t  limitations under the License.""
  }, {
    ""SPDXID"" : ""SPDXRef-58"",
    ""checksums"" : [ {
      ""algorithm"" : ""SHA1"",
      ""checksumValue"" : ""3b22a88678cd3e413388b151cd81b98d470bf859""
    } ],
    ""copyrightText"" : ""Copyright (c) 2020 Source Auditor Inc."",
    ""fileContributors"" : [ ""Gary O'Neall"" ],
    ""fileName"" : ""./src/main/java/org/spdx/tools/SpdxToolsHelper.java"",
    ""fileTypes"" : [ ""SOURCE"" ],
    ""licenseComments"" : ""This file contains SPDX-License-Identifiers for (Apache-2.0 AND Apache-2.0)"",
    ""licenseConcluded"" : ""(Apache-2.0 AND Apache-2.0)"",
    ""licenseInfoInFiles"" : [ ""(Apache-2.0 AND Apache-2.0)"" ],
    ""noticeText"" : ""Licensed under the Apache License, Version 2.0 (the \""License\"");\n\t\t  you may not use this file except in compliance with the License.\n\t\t  You may obtain a copy of the License at\n\t\t\n\t\t      http://www.apache.org/licenses/LICENSE-2.0\n\t\t\n\t\t  Unless required by applicable law or agreed to in writing, software\n\t\t  distributed under the License is distributed on an \""AS IS\"" BASIS,\n\t\t  WITHOUT WARRANTIES OR CONDITIONS OF ANY KIND, either express or implied.\n\t\t  See the License for the specific language governing permissions and\n\t\t  limitations under the License.""
  }, {
    ""SPDXID""";
" : ""SPDXRef-59"",
    ""checksums"" : [ {
      ""algorithm"" : ""SHA1"",
      ""checksumValue"" : ""66684743d721070b231425c14d92370c6a54b887""
    } ],
    ""copyrightText"" : ""Copyright (c) 2020 Source Auditor Inc."",
    ""fileContributors"" : [ ""Gary O'Neall"" ],
    ""fileName"" : ""./src/main/java/org/spdx/tools/SpdxConverterException.java"",
    ""fileTypes"" : [ ""SOURCE"" ],
    ""licenseComments"" : ""This file contains SPDX-License-Identifiers for (Apache-2.0 AND Apache-2.0)"",
    ""licenseConcluded"" : ""(Apache-2.0 AND Apache-2.0)"",
    ""licenseInfoInFiles"" : [ ""(Apache-2.0 AND Apache-2.0)"" ],
    ""noticeText"" : ""Licensed under the Apache License, Version 2.0 (the \""License\"");\n\t\t  you may not use this file except in compliance with the License.\n\t\t  You may obtain a copy of the License at\n\t\t\n\t\t      http://www.apache.org/licenses/LICENSE-2.0\n\t\t\n\t\t  Unless required by applicable law or agreed to in writing, software\n\t\t  distributed under the License is distributed on an \""AS IS\"" BASIS,\n\t\t  WITHOUT WARRANTIES OR CONDITIONS OF ANY KIND, either express or implied.\n\t\t  See the License for the specific language governing permissions and\n\t\t  limitations under the License.""
  }, {
    ""SPDXID"" : ""SPDXRef-56"",
    ""checksums"" : [ {
      ""algorithm"" : ""SHA1"",
      ""checksumValue"" : ""ec2cb0867ce69112b1a4f043106c33333e6fdd42""
    } ],
    ""copyrightText"" : ""Copyright (c) 2020 Source Auditor Inc."",
    ""fileContributors"" : [ ""Gary O'Neall"" ],
    ""fileName"" : ""./src/main/java/org/spdx/tools/SpdxVerificationException.java"",
    ""fileTypes"" : [ ""SOURCE"" ],
    ""licenseComments"" : ""This file contains SPDX-License-Identifiers for (Apache-2.0 AND Apache-2.0)"",
    ""licenseConcluded"" : ""(Apache-2.0 AND Apache-2.0)"",
    ""licenseInfoInFiles"" : [ ""(Apache-2.0 AND Apache-2.0)"" ],
    ""noticeText"" : ""Licensed under the Apache License, Version 2.0 (the \""License\"");\n\t\t  you may not use this file except in compliance with the License.\n\t\t  You may obtain a copy of the L";
"icense at\n\t\t\n\t\t      http://www.apache.org/licenses/LICENSE-2.0\n\t\t\n\t\t  Unless required by applicable law or agreed to in writing, software\n\t\t  distributed under the License is distributed on an \""AS IS\"" BASIS,\n\t\t  WITHOUT WARRANTIES OR CONDITIONS OF ANY KIND, either express or implied.\n\t\t  See the License for the specific language governing permissions and\n\t\t  limitations under the License.""
  }, {
    ""SPDXID"" : ""SPDXRef-57"",
    ""checksums"" : [ {
      ""algorithm"" : ""SHA1"",
      ""checksumValue"" : ""cd1a11b5ff387b299f71962e4a766fb0456b981c""
    } ],
    ""copyrightText"" : ""Copyright (c) 2020 Source Auditor Inc."",
    ""fileContributors"" : [ ""Gary O'Neall"" ],
    ""fileName"" : ""./src/main/java/org/spdx/tools/SpdxConverter.java"",
    ""fileTypes"" : [ ""SOURCE"" ],
    ""licenseComments"" : ""This file contains SPDX-License-Identifiers for Apache-2.0"",
    ""licenseConcluded"" : ""Apache-2.0"",
    ""licenseInfoInFiles"" : [ ""Apache-2.0"" ],
    ""noticeText"" : ""Licensed under the Apache License, Version 2.0 (the \""License\"");\n\t\t  you may not use this file except in compliance with the License.\n\t\t  You may obtain a copy of the License at\n\t\t\n\t\t      http://www.apache.org/licenses/LICENSE-2.0\n\t\t\n\t\t  Unless required by applicable law or agreed to in writing, software\n\t\t  distributed under the License is distributed on an \""AS IS\"" BASIS,\n\t\t  WITHOUT WARRANTIES OR CONDITIONS OF ANY KIND, either express or implied.\n\t\t  See the License for the specific language governing permissions and\n\t\t  limitations under the License.""
  }, {
    ""SPDXID"" : ""SPDXRef-54"",
    ""checksums"" : [ {
      ""algorithm"" : ""SHA1"",
      ""checksumValue"" : ""cec35ac4ee225d8af074687dd1c0d010d0a705b8""
    } ],
    ""copyrightText"" : ""Copyright (c) 2020 Source Auditor Inc."",
    ""fileContributors"" : [ ""Gary O'Neall"" ],
    ""fileName"" : ""./src/main/java/org/spdx/tools/SpdxViewer.java"",
    ""fileTypes"" : [ ""SOURCE"" ],
    ""licenseConcluded"" : ""Apache-2.0"",
    ""licenseI";
"nfoInFiles"" : [ ""Apache-2.0"" ],
    ""noticeText"" : ""Licensed under the Apache License, Version 2.0 (the \""License\"");\n\t\t  you may not use this file except in compliance with the License.\n\t\t  You may obtain a copy of the License at\n\t\t\n\t\t      http://www.apache.org/licenses/LICENSE-2.0\n\t\t\n\t\t  Unless required by applicable law or agreed to in writing, software\n\t\t  distributed under the License is distributed on an \""AS IS\"" BASIS,\n\t\t  WITHOUT WARRANTIES OR CONDITIONS OF ANY KIND, either express or implied.\n\t\t  See the License for the specific language governing permissions and\n\t\t  limitations under the License.""
  }, {
    ""SPDXID"" : ""SPDXRef-55"",
    ""checksums"" : [ {
      ""algorithm"" : ""SHA1"",
      ""checksumValue"" : ""0b69b5f38bad9b2c0e7ac039c2d4db98f363a7f2""
    } ],
    ""copyrightText"" : ""Copyright (c) 2020 Source Auditor Inc."",
    ""fileContributors"" : [ ""Gary O'Neall"" ],
    ""fileName"" : ""./src/main/java/org/spdx/tools/Verify.java"",
    ""fileTypes"" : [ ""SOURCE"" ],
    ""licenseConcluded"" : ""Apache-2.0"",
    ""licenseInfoInFiles"" : [ ""Apache-2.0"" ],
    ""noticeText"" : ""Licensed under the Apache License, Version 2.0 (the \""License\"");\n\t\t  you may not use this file except in compliance with the License.\n\t\t  You may obtain a copy of the License at\n\t\t\n\t\t      http://www.apache.org/licenses/LICENSE-2.0\n\t\t\n\t\t  Unless required by applicable law or agreed to in writing, software\n\t\t  distributed under the License is distributed on an \""AS IS\"" BASIS,\n\t\t  WITHOUT WARRANTIES OR CONDITIONS OF ANY KIND, either express or implied.\n\t\t  See the License for the specific language governing permissions and\n\t\t  limitations under the License.""
  }, {
    ""SPDXID"" : ""SPDXRef-52"",
    ""checksums"" : [ {
      ""algorithm"" : ""SHA1"",
      ""checksumValue"" : ""e175b5c8fc68c0aca5688fa25c3bf450959cd728""
    } ],
    ""copyrightText"" : ""Copyright (c) 2020 Source Auditor Inc."",
    ""fileContributors"" : [ ""Gary O'Neall"" ],
    ""fileName"" : ";
"""./src/main/java/org/spdx/tools/GenerateVerificationCode.java"",
    ""fileTypes"" : [ ""SOURCE"" ],
    ""licenseConcluded"" : ""Apache-2.0"",
    ""licenseInfoInFiles"" : [ ""Apache-2.0"" ],
    ""noticeText"" : ""Licensed under the Apache License, Version 2.0 (the \""License\"");\n\t\t  you may not use this file except in compliance with the License.\n\t\t  You may obtain a copy of the License at\n\t\t\n\t\t      http://www.apache.org/licenses/LICENSE-2.0\n\t\t\n\t\t  Unless required by applicable law or agreed to in writing, software\n\t\t  distributed under the License is distributed on an \""AS IS\"" BASIS,\n\t\t  WITHOUT WARRANTIES OR CONDITIONS OF ANY KIND, either express or implied.\n\t\t  See the License for the specific language governing permissions and\n\t\t  limitations under the License.""
  }, {
    ""SPDXID"" : ""SPDXRef-53"",
    ""checksums"" : [ {
      ""algorithm"" : ""SHA1"",
      ""checksumValue"" : ""71b94d742f022df3df565d0b9b2e18a36286dfaa""
    } ],
    ""copyrightText"" : ""Copyright (c) 2020 Source Auditor Inc."",
    ""fileContributors"" : [ ""Gary O'Neall"" ],
    ""fileName"" : ""./src/main/java/org/spdx/tools/RdfSchemaToJsonSchema.java"",
    ""fileTypes"" : [ ""SOURCE"" ],
    ""licenseComments"" : ""This file contains SPDX-License-Identifiers for Apache-2.0"",
    ""licenseConcluded"" : ""Apache-2.0"",
    ""licenseInfoInFiles"" : [ ""Apache-2.0"" ],
    ""noticeText"" : ""Licensed under the Apache License, Version 2.0 (the \""License\"");\n\t\t  you may not use this file except in compliance with the License.\n\t\t  You may obtain a copy of the License at\n\t\t\n\t\t      http://www.apache.org/licenses/LICENSE-2.0\n\t\t\n\t\t  Unless required by applicable law or agreed to in writing, software\n\t\t  distributed under the License is distributed on an \""AS IS\"" BASIS,\n\t\t  WITHOUT WARRANTIES OR CONDITIONS OF ANY KIND, either express or implied.\n\t\t  See the License for the specific language governing permissions and\n\t\t  limitations under the License.""
  }, {
    ""SPDXID"" : ""SPDXRef-61"",
   ";
" ""checksums"" : [ {
      ""algorithm"" : ""SHA1"",
      ""checksumValue"" : ""f189abcf851acbcd00a7e709a55d04553dc2d120""
    } ],
    ""copyrightText"" : ""Copyright (c) 2020 Source Auditor Inc."",
    ""fileContributors"" : [ ""Gary O'Neall"" ],
    ""fileName"" : ""./src/test/java/org/spdx/tools/schema/OwlToXSDTest.java"",
    ""fileTypes"" : [ ""SOURCE"" ],
    ""licenseConcluded"" : ""Apache-2.0"",
    ""licenseInfoInFiles"" : [ ""Apache-2.0"" ],
    ""noticeText"" : ""Licensed under the Apache License, Version 2.0 (the \""License\"");\n\t\t  you may not use this file except in compliance with the License.\n\t\t  You may obtain a copy of the License at\n\t\t\n\t\t      http://www.apache.org/licenses/LICENSE-2.0\n\t\t\n\t\t  Unless required by applicable law or agreed to in writing, software\n\t\t  distributed under the License is distributed on an \""AS IS\"" BASIS,\n\t\t  WITHOUT WARRANTIES OR CONDITIONS OF ANY KIND, either express or implied.\n\t\t  See the License for the specific language governing permissions and\n\t\t  limitations under the License.""
  }, {
    ""SPDXID"" : ""SPDXRef-62"",
    ""checksums"" : [ {
      ""algorithm"" : ""SHA1"",
      ""checksumValue"" : ""ef0e779f7111d38eecab07e3bb324eec34b04874""
    } ],
    ""copyrightText"" : ""Copyright (c) 2020 Source Auditor Inc."",
    ""fileContributors"" : [ ""Gary O'Neall"" ],
    ""fileName"" : ""./src/test/java/org/spdx/tools/CompareSpdxDocsTest.java"",
    ""fileTypes"" : [ ""SOURCE"" ],
    ""licenseComments"" : ""This file contains SPDX-License-Identifiers for (Apache-2.0 AND Apache-2.0)"",
    ""licenseConcluded"" : ""(Apache-2.0 AND Apache-2.0)"",
    ""licenseInfoInFiles"" : [ ""(Apache-2.0 AND Apache-2.0)"" ],
    ""noticeText"" : ""Licensed under the Apache License, Version 2.0 (the \""License\"");\n\t\t  you may not use this file except in compliance with the License.\n\t\t  You may obtain a copy of the License at\n\t\t\n\t\t      http://www.apache.org/licenses/LICENSE-2.0\n\t\t\n\t\t  Unless required by applicable law or agreed to in writing, software\n\t\t  distribu";
"ted under the License is distributed on an \""AS IS\"" BASIS,\n\t\t  WITHOUT WARRANTIES OR CONDITIONS OF ANY KIND, either express or implied.\n\t\t  See the License for the specific language governing permissions and\n\t\t  limitations under the License.""
  }, {
    ""SPDXID"" : ""SPDXRef-60"",
    ""checksums"" : [ {
      ""algorithm"" : ""SHA1"",
      ""checksumValue"" : ""83f5363f812499640be247838ab3e11ce52395ec""
    } ],
    ""copyrightText"" : ""Copyright (c) 2020 Source Auditor Inc."",
    ""fileContributors"" : [ ""Gary O'Neall"" ],
    ""fileName"" : ""./src/test/java/org/spdx/tools/VerifyTest.java"",
    ""fileTypes"" : [ ""SOURCE"" ],
    ""licenseConcluded"" : ""Apache-2.0"",
    ""licenseInfoInFiles"" : [ ""Apache-2.0"" ],
    ""noticeText"" : ""Licensed under the Apache License, Version 2.0 (the \""License\"");\n\t\t  you may not use this file except in compliance with the License.\n\t\t  You may obtain a copy of the License at\n\t\t\n\t\t      http://www.apache.org/licenses/LICENSE-2.0\n\t\t\n\t\t  Unless required by applicable law or agreed to in writing, software\n\t\t  distributed under the License is distributed on an \""AS IS\"" BASIS,\n\t\t  WITHOUT WARRANTIES OR CONDITIONS OF ANY KIND, either express or implied.\n\t\t  See the License for the specific language governing permissions and\n\t\t  limitations under the License.""
  }, {
    ""SPDXID"" : ""SPDXRef-69"",
    ""checksums"" : [ {
      ""algorithm"" : ""SHA1"",
      ""checksumValue"" : ""a27f4a6ee333a76569eb266bc44be7052798a69e""
    } ],
    ""copyrightText"" : ""Copyright (c) 2020 Source Auditor Inc."",
    ""fileContributors"" : [ ""Gary O'Neall"" ],
    ""fileName"" : ""./src/main/resources/project.properties"",
    ""fileTypes"" : [ ""OTHER"" ],
    ""licenseConcluded"" : ""Apache-2.0"",
    ""licenseInfoInFiles"" : [ ""Apache-2.0"" ],
    ""noticeText"" : ""Licensed under the Apache License, Version 2.0 (the \""License\"");\n\t\t  you may not use this file except in compliance with the License.\n\t\t  You may obtain a copy of the License at\n\t\t\n\t\t      http://ww";
"w.apache.org/licenses/LICENSE-2.0\n\t\t\n\t\t  Unless required by applicable law or agreed to in writing, software\n\t\t  distributed under the License is distributed on an \""AS IS\"" BASIS,\n\t\t  WITHOUT WARRANTIES OR CONDITIONS OF ANY KIND, either express or implied.\n\t\t  See the License for the specific language governing permissions and\n\t\t  limitations under the License.""
  }, {
    ""SPDXID"" : ""SPDXRef-67"",
    ""checksums"" : [ {
      ""algorithm"" : ""SHA1"",
      ""checksumValue"" : ""74b78d4536ba3333490f5691785c2090a89ee7cb""
    } ],
    ""copyrightText"" : ""Copyright (c) 2020 Source Auditor Inc."",
    ""fileContributors"" : [ ""Gary O'Neall"" ],
    ""fileName"" : ""./resources/spdx-schema-v2.3.json"",
    ""fileTypes"" : [ ""OTHER"" ],
    ""licenseConcluded"" : ""Apache-2.0"",
    ""licenseInfoInFiles"" : [ ""Apache-2.0"" ],
    ""noticeText"" : ""Licensed under the Apache License, Version 2.0 (the \""License\"");\n\t\t  you may not use this file except in compliance with the License.\n\t\t  You may obtain a copy of the License at\n\t\t\n\t\t      http://www.apache.org/licenses/LICENSE-2.0\n\t\t\n\t\t  Unless required by applicable law or agreed to in writing, software\n\t\t  distributed under the License is distributed on an \""AS IS\"" BASIS,\n\t\t  WITHOUT WARRANTIES OR CONDITIONS OF ANY KIND, either express or implied.\n\t\t  See the License for the specific language governing permissions and\n\t\t  limitations under the License.""
  }, {
    ""SPDXID"" : ""SPDXRef-68"",
    ""checksums"" : [ {
      ""algorithm"" : ""SHA1"",
      ""checksumValue"" : ""7df059597099bb7dcf25d2a9aedfaf4465f72d8d""
    } ],
    ""copyrightText"" : ""Copyright (c) 2020 Source Auditor Inc."",
    ""fileContributors"" : [ ""Gary O'Neall"" ],
    ""fileName"" : ""./LICENSE"",
    ""fileTypes"" : [ ""OTHER"" ],
    ""licenseConcluded"" : ""Apache-2.0"",
    ""licenseInfoInFiles"" : [ ""Apache-2.0"" ],
    ""noticeText"" : ""Licensed under the Apache License, Version 2.0 (the \""License\"");\n\t\t  you may not use this file except in compliance with ";
"the License.\n\t\t  You may obtain a copy of the License at\n\t\t\n\t\t      http://www.apache.org/licenses/LICENSE-2.0\n\t\t\n\t\t  Unless required by applicable law or agreed to in writing, software\n\t\t  distributed under the License is distributed on an \""AS IS\"" BASIS,\n\t\t  WITHOUT WARRANTIES OR CONDITIONS OF ANY KIND, either express or implied.\n\t\t  See the License for the specific language governing permissions and\n\t\t  limitations under the License.""
  }, {
    ""SPDXID"" : ""SPDXRef-65"",
    ""checksums"" : [ {
      ""algorithm"" : ""SHA1"",
      ""checksumValue"" : ""6656403ea25de02923edc47cfe4c53511265bac6""
    } ],
    ""copyrightText"" : ""Copyright (c) 2020 Source Auditor Inc."",
    ""fileContributors"" : [ ""Gary O'Neall"" ],
    ""fileName"" : ""./resources/log4j2.xml"",
    ""fileTypes"" : [ ""SOURCE"" ],
    ""licenseConcluded"" : ""Apache-2.0"",
    ""licenseInfoInFiles"" : [ ""Apache-2.0"" ],
    ""noticeText"" : ""Licensed under the Apache License, Version 2.0 (the \""License\"");\n\t\t  you may not use this file except in compliance with the License.\n\t\t  You may obtain a copy of the License at\n\t\t\n\t\t      http://www.apache.org/licenses/LICENSE-2.0\n\t\t\n\t\t  Unless required by applicable law or agreed to in writing, software\n\t\t  distributed under the License is distributed on an \""AS IS\"" BASIS,\n\t\t  WITHOUT WARRANTIES OR CONDITIONS OF ANY KIND, either express or implied.\n\t\t  See the License for the specific language governing permissions and\n\t\t  limitations under the License.""
  }, {
    ""SPDXID"" : ""SPDXRef-66"",
    ""checksums"" : [ {
      ""algorithm"" : ""SHA1"",
      ""checksumValue"" : ""a44823d7dd9a2e250e71587c326f4d558d4f0e63""
    } ],
    ""copyrightText"" : ""Copyright (c) 2020 Source Auditor Inc."",
    ""fileContributors"" : [ ""Gary O'Neall"" ],
    ""fileName"" : ""./resources/spdx-schema-v2.2.json"",
    ""fileTypes"" : [ ""OTHER"" ],
    ""licenseConcluded"" : ""Apache-2.0"",
    ""licenseInfoInFiles"" : [ ""Apache-2.0"" ],
    ""noticeText"" : ""Licensed under the Apache";
" License, Version 2.0 (the \""License\"");\n\t\t  you may not use this file except in compliance with the License.\n\t\t  You may obtain a copy of the License at\n\t\t\n\t\t      http://www.apache.org/licenses/LICENSE-2.0\n\t\t\n\t\t  Unless required by applicable law or agreed to in writing, software\n\t\t  distributed under the License is distributed on an \""AS IS\"" BASIS,\n\t\t  WITHOUT WARRANTIES OR CONDITIONS OF ANY KIND, either express or implied.\n\t\t  See the License for the specific language governing permissions and\n\t\t  limitations under the License.""
  }, {
    ""SPDXID"" : ""SPDXRef-63"",
    ""checksums"" : [ {
      ""algorithm"" : ""SHA1"",
      ""checksumValue"" : ""470797430952b1812ceef11e9532005bf4d41311""
    } ],
    ""copyrightText"" : ""Copyright (c) 2020 Source Auditor Inc."",
    ""fileContributors"" : [ ""Gary O'Neall"" ],
    ""fileName"" : ""./src/test/java/org/spdx/tools/SpdxConverterTest.java"",
    ""fileTypes"" : [ ""SOURCE"" ],
    ""licenseComments"" : ""This file contains SPDX-License-Identifiers for (Apache-2.0 AND Apache-2.0)"",
    ""licenseConcluded"" : ""(Apache-2.0 AND Apache-2.0)"",
    ""licenseInfoInFiles"" : [ ""(Apache-2.0 AND Apache-2.0)"" ],
    ""noticeText"" : ""Licensed under the Apache License, Version 2.0 (the \""License\"");\n\t\t  you may not use this file except in compliance with the License.\n\t\t  You may obtain a copy of the License at\n\t\t\n\t\t      http://www.apache.org/licenses/LICENSE-2.0\n\t\t\n\t\t  Unless required by applicable law or agreed to in writing, software\n\t\t  distributed under the License is distributed on an \""AS IS\"" BASIS,\n\t\t  WITHOUT WARRANTIES OR CONDITIONS OF ANY KIND, either express or implied.\n\t\t  See the License for the specific language governing permissions and\n\t\t  limitations under the License.""
  }, {
    ""SPDXID"" : ""SPDXRef-64"",
    ""checksums"" : [ {
      ""algorithm"" : ""SHA1"",
      ""checksumValue"" : ""74a0a937cbb05f5ec30e05dae25eda82fc02bf65""
    } ],
    ""copyrightText"" : ""Copyright (c) 2020 Source Audito";
"r Inc."",
    ""fileContributors"" : [ ""Gary O'Neall"" ],
    ""fileName"" : ""./src/test/java/org/spdx/tools/GenerateVerificationCodeTest.java"",
    ""fileTypes"" : [ ""SOURCE"" ],
    ""licenseConcluded"" : ""Apache-2.0"",
    ""licenseInfoInFiles"" : [ ""Apache-2.0"" ],
    ""noticeText"" : ""Licensed under the Apache License, Version 2.0 (the \""License\"");\n\t\t  you may not use this file except in compliance with the License.\n\t\t  You may obtain a copy of the License at\n\t\t\n\t\t      http://www.apache.org/licenses/LICENSE-2.0\n\t\t\n\t\t  Unless required by applicable law or agreed to in writing, software\n\t\t  distributed under the License is distributed on an \""AS IS\"" BASIS,\n\t\t  WITHOUT WARRANTIES OR CONDITIONS OF ANY KIND, either express or implied.\n\t\t  See the License for the specific language governing permissions and\n\t\t  limitations under the License.""
  }, {
    ""SPDXID"" : ""SPDXRef-18"",
    ""checksums"" : [ {
      ""algorithm"" : ""SHA1"",
      ""checksumValue"" : ""8243f50e7f6b7528be71b1e9b3b17d7ff5f509b1""
    } ],
    ""copyrightText"" : ""Copyright (c) 2020 Source Auditor Inc."",
    ""fileContributors"" : [ ""Gary O'Neall"" ],
    ""fileName"" : ""./src/main/java/org/spdx/tools/schema/OwlToXsd.java"",
    ""fileTypes"" : [ ""SOURCE"" ],
    ""licenseComments"" : ""This file contains SPDX-License-Identifiers for Apache-2.0"",
    ""licenseConcluded"" : ""Apache-2.0"",
    ""licenseInfoInFiles"" : [ ""Apache-2.0"" ],
    ""noticeText"" : ""Licensed under the Apache License, Version 2.0 (the \""License\"");\n\t\t  you may not use this file except in compliance with the License.\n\t\t  You may obtain a copy of the License at\n\t\t\n\t\t      http://www.apache.org/licenses/LICENSE-2.0\n\t\t\n\t\t  Unless required by applicable law or agreed to in writing, software\n\t\t  distributed under the License is distributed on an \""AS IS\"" BASIS,\n\t\t  WITHOUT WARRANTIES OR CONDITIONS OF ANY KIND, either express or implied.\n\t\t  See the License for the specific language governing permissions and\n\t\t  li";
"mitations under the License.""
  }, {
    ""SPDXID"" : ""SPDXRef-19"",
    ""checksums"" : [ {
      ""algorithm"" : ""SHA1"",
      ""checksumValue"" : ""3d26f3f89de160abdda66a660851c315199f43d0""
    } ],
    ""copyrightText"" : ""Copyright (c) 2020 Source Auditor Inc."",
    ""fileContributors"" : [ ""Gary O'Neall"" ],
    ""fileName"" : ""./src/main/java/org/spdx/tools/schema/package-info.java"",
    ""fileTypes"" : [ ""SOURCE"" ],
    ""licenseComments"" : ""This file contains SPDX-License-Identifiers for Apache-2.0"",
    ""licenseConcluded"" : ""Apache-2.0"",
    ""licenseInfoInFiles"" : [ ""Apache-2.0"" ],
    ""noticeText"" : ""Licensed under the Apache License, Version 2.0 (the \""License\"");\n\t\t  you may not use this file except in compliance with the License.\n\t\t  You may obtain a copy of the License at\n\t\t\n\t\t      http://www.apache.org/licenses/LICENSE-2.0\n\t\t\n\t\t  Unless required by applicable law or agreed to in writing, software\n\t\t  distributed under the License is distributed on an \""AS IS\"" BASIS,\n\t\t  WITHOUT WARRANTIES OR CONDITIONS OF ANY KIND, either express or implied.\n\t\t  See the License for the specific language governing permissions and\n\t\t  limitations under the License.""
  }, {
    ""SPDXID"" : ""SPDXRef-16"",
    ""checksums"" : [ {
      ""algorithm"" : ""SHA1"",
      ""checksumValue"" : ""37cc11c4b3ef94f1220863dac95e14a0283b91da""
    } ],
    ""copyrightText"" : ""Copyright (c) 2020 Source Auditor Inc."",
    ""fileContributors"" : [ ""Gary O'Neall"" ],
    ""fileName"" : ""./src/main/java/org/spdx/tools/schema/OwlToJsonSchema.java"",
    ""fileTypes"" : [ ""SOURCE"" ],
    ""licenseComments"" : ""This file contains SPDX-License-Identifiers for Apache-2.0"",
    ""licenseConcluded"" : ""Apache-2.0"",
    ""licenseInfoInFiles"" : [ ""Apache-2.0"" ],
    ""noticeText"" : ""Licensed under the Apache License, Version 2.0 (the \""License\"");\n\t\t  you may not use this file except in compliance with the License.\n\t\t  You may obtain a copy of the License at\n\t\t\n\t\t      http://www.apache.org/licenses/L";
"ICENSE-2.0\n\t\t\n\t\t  Unless required by applicable law or agreed to in writing, software\n\t\t  distributed under the License is distributed on an \""AS IS\"" BASIS,\n\t\t  WITHOUT WARRANTIES OR CONDITIONS OF ANY KIND, either express or implied.\n\t\t  See the License for the specific language governing permissions and\n\t\t  limitations under the License.""
  }, {
    ""SPDXID"" : ""SPDXRef-17"",
    ""checksums"" : [ {
      ""algorithm"" : ""SHA1"",
      ""checksumValue"" : ""7677c8030c2c1f6745feeaf749cc5ca1a2adb6d4""
    } ],
    ""copyrightText"" : ""Copyright (c) 2020 Source Auditor Inc."",
    ""fileContributors"" : [ ""Gary O'Neall"" ],
    ""fileName"" : ""./src/main/java/org/spdx/tools/schema/OwlToJsonContext.java"",
    ""fileTypes"" : [ ""SOURCE"" ],
    ""licenseComments"" : ""This file contains SPDX-License-Identifiers for Apache-2.0"",
    ""licenseConcluded"" : ""Apache-2.0"",
    ""licenseInfoInFiles"" : [ ""Apache-2.0"" ],
    ""noticeText"" : ""Licensed under the Apache License, Version 2.0 (the \""License\"");\n\t\t  you may not use this file except in compliance with the License.\n\t\t  You may obtain a copy of the License at\n\t\t\n\t\t      http://www.apache.org/licenses/LICENSE-2.0\n\t\t\n\t\t  Unless required by applicable law or agreed to in writing, software\n\t\t  distributed under the License is distributed on an \""AS IS\"" BASIS,\n\t\t  WITHOUT WARRANTIES OR CONDITIONS OF ANY KIND, either express or implied.\n\t\t  See the License for the specific language governing permissions and\n\t\t  limitations under the License.""
  }, {
    ""SPDXID"" : ""SPDXRef-14"",
    ""checksums"" : [ {
      ""algorithm"" : ""SHA1"",
      ""checksumValue"" : ""7c48b20e78280d6e4468a7b052d4d8ed79331b60""
    } ],
    ""copyrightText"" : ""Copyright (c) 2020 Source Auditor Inc."",
    ""fileContributors"" : [ ""Gary O'Neall"" ],
    ""fileName"" : ""./src/main/java/org/spdx/tools/schema/AbstractOwlRdfConverter.java"",
    ""fileTypes"" : [ ""SOURCE"" ],
    ""licenseComments"" : ""This file contains SPDX-License-Identifiers for Apache-2";
".0"",
    ""licenseConcluded"" : ""Apache-2.0"",
    ""licenseInfoInFiles"" : [ ""Apache-2.0"" ],
    ""noticeText"" : ""Licensed under the Apache License, Version 2.0 (the \""License\"");\n\t\t  you may not use this file except in compliance with the License.\n\t\t  You may obtain a copy of the License at\n\t\t\n\t\t      http://www.apache.org/licenses/LICENSE-2.0\n\t\t\n\t\t  Unless required by applicable law or agreed to in writing, software\n\t\t  distributed under the License is distributed on an \""AS IS\"" BASIS,\n\t\t  WITHOUT WARRANTIES OR CONDITIONS OF ANY KIND, either express or implied.\n\t\t  See the License for the specific language governing permissions and\n\t\t  limitations under the License.""
  }, {
    ""SPDXID"" : ""SPDXRef-15"",
    ""checksums"" : [ {
      ""algorithm"" : ""SHA1"",
      ""checksumValue"" : ""b2efd916737460752161d18259dd44205c805cbd""
    } ],
    ""copyrightText"" : ""Copyright (c) 2020 Source Auditor Inc."",
    ""fileContributors"" : [ ""Gary O'Neall"" ],
    ""fileName"" : ""./src/main/java/org/spdx/tools/schema/SchemaException.java"",
    ""fileTypes"" : [ ""SOURCE"" ],
    ""licenseComments"" : ""This file contains SPDX-License-Identifiers for Apache-2.0"",
    ""licenseConcluded"" : ""Apache-2.0"",
    ""licenseInfoInFiles"" : [ ""Apache-2.0"" ],
    ""noticeText"" : ""Licensed under the Apache License, Version 2.0 (the \""License\"");\n\t\t  you may not use this file except in compliance with the License.\n\t\t  You may obtain a copy of the License at\n\t\t\n\t\t      http://www.apache.org/licenses/LICENSE-2.0\n\t\t\n\t\t  Unless required by applicable law or agreed to in writing, software\n\t\t  distributed under the License is distributed on an \""AS IS\"" BASIS,\n\t\t  WITHOUT WARRANTIES OR CONDITIONS OF ANY KIND, either express or implied.\n\t\t  See the License for the specific language governing permissions and\n\t\t  limitations under the License.""
  }, {
    ""SPDXID"" : ""SPDXRef-12"",
    ""checksums"" : [ {
      ""algorithm"" : ""SHA1"",
      ""checksumValue"" : ""4cdb1350de4ebfb409";
"a52b060b2b92a344b88a7b""
    } ],
    ""copyrightText"" : ""Copyright (c) 2020 Source Auditor Inc."",
    ""fileContributors"" : [ ""Gary O'Neall"" ],
    ""fileName"" : ""./src/main/java/org/spdx/tools/OnlineToolException.java"",
    ""fileTypes"" : [ ""SOURCE"" ],
    ""licenseConcluded"" : ""Apache-2.0"",
    ""licenseInfoInFiles"" : [ ""Apache-2.0"" ],
    ""noticeText"" : ""Licensed under the Apache License, Version 2.0 (the \""License\"");\n\t\t  you may not use this file except in compliance with the License.\n\t\t  You may obtain a copy of the License at\n\t\t\n\t\t      http://www.apache.org/licenses/LICENSE-2.0\n\t\t\n\t\t  Unless required by applicable law or agreed to in writing, software\n\t\t  distributed under the License is distributed on an \""AS IS\"" BASIS,\n\t\t  WITHOUT WARRANTIES OR CONDITIONS OF ANY KIND, either express or implied.\n\t\t  See the License for the specific language governing permissions and\n\t\t  limitations under the License.""
  }, {
    ""SPDXID"" : ""SPDXRef-13"",
    ""checksums"" : [ {
      ""algorithm"" : ""SHA1"",
      ""checksumValue"" : ""a89650ca925131ce60bf16f35a9ce41c687862ad""
    } ],
    ""copyrightText"" : ""Copyright (c) 2020 Source Auditor Inc."",
    ""fileContributors"" : [ ""Gary O'Neall"" ],
    ""fileName"" : ""./src/main/java/org/spdx/tools/RdfSchemaToXsd.java"",
    ""fileTypes"" : [ ""SOURCE"" ],
    ""licenseComments"" : ""This file contains SPDX-License-Identifiers for Apache-2.0"",
    ""licenseConcluded"" : ""Apache-2.0"",
    ""licenseInfoInFiles"" : [ ""Apache-2.0"" ],
    ""noticeText"" : ""Licensed under the Apache License, Version 2.0 (the \""License\"");\n\t\t  you may not use this file except in compliance with the License.\n\t\t  You may obtain a copy of the License at\n\t\t\n\t\t      http://www.apache.org/licenses/LICENSE-2.0\n\t\t\n\t\t  Unless required by applicable law or agreed to in writing, software\n\t\t  distributed under the License is distributed on an \""AS IS\"" BASIS,\n\t\t  WITHOUT WARRANTIES OR CONDITIONS OF ANY KIND, either express or implied.\n\t\t ";
" See the License for the specific language governing permissions and\n\t\t  limitations under the License.""
  }, {
    ""SPDXID"" : ""SPDXRef-10"",
    ""checksums"" : [ {
      ""algorithm"" : ""SHA1"",
      ""checksumValue"" : ""916573baaf241c117c5fbc4bd073fb2e01c53af8""
    } ],
    ""copyrightText"" : ""Copyright (c) 2020 Source Auditor Inc."",
    ""fileContributors"" : [ ""Gary O'Neall"" ],
    ""fileName"" : ""./src/main/java/org/spdx/tools/CompareSpdxDocs.java"",
    ""fileTypes"" : [ ""SOURCE"" ],
    ""licenseConcluded"" : ""Apache-2.0"",
    ""licenseInfoInFiles"" : [ ""Apache-2.0"" ],
    ""noticeText"" : ""Licensed under the Apache License, Version 2.0 (the \""License\"");\n\t\t  you may not use this file except in compliance with the License.\n\t\t  You may obtain a copy of the License at\n\t\t\n\t\t      http://www.apache.org/licenses/LICENSE-2.0\n\t\t\n\t\t  Unless required by applicable law or agreed to in writing, software\n\t\t  distributed under the License is distributed on an \""AS IS\"" BASIS,\n\t\t  WITHOUT WARRANTIES OR CONDITIONS OF ANY KIND, either express or implied.\n\t\t  See the License for the specific language governing permissions and\n\t\t  limitations under the License.""
  }, {
    ""SPDXID"" : ""SPDXRef-11"",
    ""checksums"" : [ {
      ""algorithm"" : ""SHA1"",
      ""checksumValue"" : ""7327e9256c3f56f2d5c2e9541b0db6f08652cd5c""
    } ],
    ""copyrightText"" : ""Copyright (c) 2020 Source Auditor Inc."",
    ""fileContributors"" : [ ""Gary O'Neall"" ],
    ""fileName"" : ""./src/main/java/org/spdx/tools/SpdxVersion.java"",
    ""fileTypes"" : [ ""SOURCE"" ],
    ""licenseComments"" : ""This file contains SPDX-License-Identifiers for (Apache-2.0 AND Apache-2.0)"",
    ""licenseConcluded"" : ""(Apache-2.0 AND Apache-2.0)"",
    ""licenseInfoInFiles"" : [ ""(Apache-2.0 AND Apache-2.0)"" ],
    ""noticeText"" : ""Licensed under the Apache License, Version 2.0 (the \""License\"");\n\t\t  you may not use this file except in compliance with the License.\n\t\t  You may obtain a copy of the License at\n\t\t\n\t\t      http";
"://www.apache.org/licenses/LICENSE-2.0\n\t\t\n\t\t  Unless required by applicable law or agreed to in writing, software\n\t\t  distributed under the License is distributed on an \""AS IS\"" BASIS,\n\t\t  WITHOUT WARRANTIES OR CONDITIONS OF ANY KIND, either express or implied.\n\t\t  See the License for the specific language governing permissions and\n\t\t  limitations under the License.""
  }, {
    ""SPDXID"" : ""SPDXRef-29"",
    ""checksums"" : [ {
      ""algorithm"" : ""SHA1"",
      ""checksumValue"" : ""0a20188fd7d23f04a6b49b3ec534a3a1a95d70b1""
    } ],
    ""copyrightText"" : ""Copyright (c) 2020 Source Auditor Inc."",
    ""fileContributors"" : [ ""Gary O'Neall"" ],
    ""fileName"" : ""./src/main/java/org/spdx/tools/compare/FileLicenseCommentsSheet.java"",
    ""fileTypes"" : [ ""SOURCE"" ],
    ""licenseConcluded"" : ""Apache-2.0"",
    ""licenseInfoInFiles"" : [ ""Apache-2.0"" ],
    ""noticeText"" : ""Licensed under the Apache License, Version 2.0 (the \""License\"");\n\t\t  you may not use this file except in compliance with the License.\n\t\t  You may obtain a copy of the License at\n\t\t\n\t\t      http://www.apache.org/licenses/LICENSE-2.0\n\t\t\n\t\t  Unless required by applicable law or agreed to in writing, software\n\t\t  distributed under the License is distributed on an \""AS IS\"" BASIS,\n\t\t  WITHOUT WARRANTIES OR CONDITIONS OF ANY KIND, either express or implied.\n\t\t  See the License for the specific language governing permissions and\n\t\t  limitations under the License.""
  }, {
    ""SPDXID"" : ""SPDXRef-27"",
    ""checksums"" : [ {
      ""algorithm"" : ""SHA1"",
      ""checksumValue"" : ""af9597d94516646e0d5e5b1172b18395899dfc9f""
    } ],
    ""copyrightText"" : ""Copyright (c) 2020 Source Auditor Inc."",
    ""fileContributors"" : [ ""Gary O'Neall"" ],
    ""fileName"" : ""./src/main/java/org/spdx/tools/compare/FileSpdxIdSheet.java"",
    ""fileTypes"" : [ ""SOURCE"" ],
    ""licenseConcluded"" : ""Apache-2.0"",
    ""licenseInfoInFiles"" : [ ""Apache-2.0"" ],
    ""noticeText"" : ""Licensed under the Apache License";
", Version 2.0 (the \""License\"");\n\t\t  you may not use this file except in compliance with the License.\n\t\t  You may obtain a copy of the License at\n\t\t\n\t\t      http://www.apache.org/licenses/LICENSE-2.0\n\t\t\n\t\t  Unless required by applicable law or agreed to in writing, software\n\t\t  distributed under the License is distributed on an \""AS IS\"" BASIS,\n\t\t  WITHOUT WARRANTIES OR CONDITIONS OF ANY KIND, either express or implied.\n\t\t  See the License for the specific language governing permissions and\n\t\t  limitations under the License.""
  }, {
    ""SPDXID"" : ""SPDXRef-28"",
    ""checksums"" : [ {
      ""algorithm"" : ""SHA1"",
      ""checksumValue"" : ""58660e158461b307c467b951d5683084cb62b3a4""
    } ],
    ""copyrightText"" : ""Copyright (c) 2020 Source Auditor Inc."",
    ""fileContributors"" : [ ""Gary O'Neall"" ],
    ""fileName"" : ""./src/main/java/org/spdx/tools/compare/FileAnnotationSheet.java"",
    ""fileTypes"" : [ ""SOURCE"" ],
    ""licenseConcluded"" : ""Apache-2.0"",
    ""licenseInfoInFiles"" : [ ""Apache-2.0"" ],
    ""noticeText"" : ""Licensed under the Apache License, Version 2.0 (the \""License\"");\n\t\t  you may not use this file except in compliance with the License.\n\t\t  You may obtain a copy of the License at\n\t\t\n\t\t      http://www.apache.org/licenses/LICENSE-2.0\n\t\t\n\t\t  Unless required by applicable law or agreed to in writing, software\n\t\t  distributed under the License is distributed on an \""AS IS\"" BASIS,\n\t\t  WITHOUT WARRANTIES OR CONDITIONS OF ANY KIND, either express or implied.\n\t\t  See the License for the specific language governing permissions and\n\t\t  limitations under the License.""
  }, {
    ""SPDXID"" : ""SPDXRef-25"",
    ""checksums"" : [ {
      ""algorithm"" : ""SHA1"",
      ""checksumValue"" : ""0481c8bf901e478ae104dd9aa0284405c38a7a97""
    } ],
    ""copyrightText"" : ""Copyright (c) 2020 Source Auditor Inc."",
    ""fileContributors"" : [ ""Gary O'Neall"" ],
    ""fileName"" : ""./src/main/java/org/spdx/tools/compare/FileLicenseInfoSheet.jav";
"a"",
    ""fileTypes"" : [ ""SOURCE"" ],
    ""licenseConcluded"" : ""Apache-2.0"",
    ""licenseInfoInFiles"" : [ ""Apache-2.0"" ],
    ""noticeText"" : ""Licensed under the Apache License, Version 2.0 (the \""License\"");\n\t\t  you may not use this file except in compliance with the License.\n\t\t  You may obtain a copy of the License at\n\t\t\n\t\t      http://www.apache.org/licenses/LICENSE-2.0\n\t\t\n\t\t  Unless required by applicable law or agreed to in writing, software\n\t\t  distributed under the License is distributed on an \""AS IS\"" BASIS,\n\t\t  WITHOUT WARRANTIES OR CONDITIONS OF ANY KIND, either express or implied.\n\t\t  See the License for the specific language governing permissions and\n\t\t  limitations under the License.""
  }, {
    ""SPDXID"" : ""SPDXRef-26"",
    ""checksums"" : [ {
      ""algorithm"" : ""SHA1"",
      ""checksumValue"" : ""a4c63213a4f59ec211663ee61da6c2c94e89abba""
    } ],
    ""copyrightText"" : ""Copyright (c) 2020 Source Auditor Inc."",
    ""fileContributors"" : [ ""Gary O'Neall"" ],
    ""fileName"" : ""./src/main/java/org/spdx/tools/compare/MultiDocumentSpreadsheet.java"",
    ""fileTypes"" : [ ""SOURCE"" ],
    ""licenseConcluded"" : ""Apache-2.0"",
    ""licenseInfoInFiles"" : [ ""Apache-2.0"" ],
    ""noticeText"" : ""Licensed under the Apache License, Version 2.0 (the \""License\"");\n\t\t  you may not use this file except in compliance with the License.\n\t\t  You may obtain a copy of the License at\n\t\t\n\t\t      http://www.apache.org/licenses/LICENSE-2.0\n\t\t\n\t\t  Unless required by applicable law or agreed to in writing, software\n\t\t  distributed under the License is distributed on an \""AS IS\"" BASIS,\n\t\t  WITHOUT WARRANTIES OR CONDITIONS OF ANY KIND, either express or implied.\n\t\t  See the License for the specific language governing permissions and\n\t\t  limitations under the License.""
  }, {
    ""SPDXID"" : ""SPDXRef-23"",
    ""checksums"" : [ {
      ""algorithm"" : ""SHA1"",
      ""checksumValue"" : ""f835c384afa248312c0946e4f13b3cc0e32e4b2b""
    } ],
    ""copyrig";
"htText"" : ""Copyright (c) 2020 Source Auditor Inc."",
    ""fileContributors"" : [ ""Gary O'Neall"" ],
    ""fileName"" : ""./src/main/java/org/spdx/tools/MatchingStandardLicenses.java"",
    ""fileTypes"" : [ ""SOURCE"" ],
    ""licenseConcluded"" : ""Apache-2.0"",
    ""licenseInfoInFiles"" : [ ""Apache-2.0"" ],
    ""noticeText"" : ""Licensed under the Apache License, Version 2.0 (the \""License\"");\n\t\t  you may not use this file except in compliance with the License.\n\t\t  You may obtain a copy of the License at\n\t\t\n\t\t      http://www.apache.org/licenses/LICENSE-2.0\n\t\t\n\t\t  Unless required by applicable law or agreed to in writing, software\n\t\t  distributed under the License is distributed on an \""AS IS\"" BASIS,\n\t\t  WITHOUT WARRANTIES OR CONDITIONS OF ANY KIND, either express or implied.\n\t\t  See the License for the specific language governing permissions and\n\t\t  limitations under the License.""
  }, {
    ""SPDXID"" : ""SPDXRef-24"",
    ""checksums"" : [ {
      ""algorithm"" : ""SHA1"",
      ""checksumValue"" : ""17bbb8d99da76391e01095b8a0e6e9d6cc66e66c""
    } ],
    ""copyrightText"" : ""Copyright (c) 2020 Source Auditor Inc."",
    ""fileContributors"" : [ ""Gary O'Neall"" ],
    ""fileName"" : ""./src/main/java/org/spdx/tools/compare/AbstractSheet.java"",
    ""fileTypes"" : [ ""SOURCE"" ],
    ""licenseConcluded"" : ""Apache-2.0"",
    ""licenseInfoInFiles"" : [ ""Apache-2.0"" ],
    ""noticeText"" : ""Licensed under the Apache License, Version 2.0 (the \""License\"");\n\t\t  you may not use this file except in compliance with the License.\n\t\t  You may obtain a copy of the License at\n\t\t\n\t\t      http://www.apache.org/licenses/LICENSE-2.0\n\t\t\n\t\t  Unless required by applicable law or agreed to in writing, software\n\t\t  distributed under the License is distributed on an \""AS IS\"" BASIS,\n\t\t  WITHOUT WARRANTIES OR CONDITIONS OF ANY KIND, either express or implied.\n\t\t  See the License for the specific language governing permissions and\n\t\t  limitations under the License.""
  }, {
    ";
"""SPDXID"" : ""SPDXRef-21"",
    ""checksums"" : [ {
      ""algorithm"" : ""SHA1"",
      ""checksumValue"" : ""1924821b7ccde0331876e81774b8a5f7b489ce63""
    } ],
    ""copyrightText"" : ""Copyright (c) 2020 Source Auditor Inc."",
    ""fileContributors"" : [ ""Gary O'Neall"" ],
    ""fileName"" : ""./src/main/java/org/spdx/tools/CONTRIBUTING.md"",
    ""fileTypes"" : [ ""DOCUMENTATION"" ],
    ""licenseConcluded"" : ""Apache-2.0"",
    ""licenseInfoInFiles"" : [ ""Apache-2.0"" ],
    ""noticeText"" : ""Licensed under the Apache License, Version 2.0 (the \""License\"");\n\t\t  you may not use this file except in compliance with the License.\n\t\t  You may obtain a copy of the License at\n\t\t\n\t\t      http://www.apache.org/licenses/LICENSE-2.0\n\t\t\n\t\t  Unless required by applicable law or agreed to in writing, software\n\t\t  distributed under the License is distributed on an \""AS IS\"" BASIS,\n\t\t  WITHOUT WARRANTIES OR CONDITIONS OF ANY KIND, either express or implied.\n\t\t  See the License for the specific language governing permissions and\n\t\t  limitations under the License.""
  }, {
    ""SPDXID"" : ""SPDXRef-22"",
    ""checksums"" : [ {
      ""algorithm"" : ""SHA1"",
      ""checksumValue"" : ""93c732d4f0c5034c328b0e54d1308141accb49f4""
    } ],
    ""copyrightText"" : ""Copyright (c) 2020 Source Auditor Inc."",
    ""fileContributors"" : [ ""Gary O'Neall"" ],
    ""fileName"" : ""./src/main/java/org/spdx/tools/Main.java"",
    ""fileTypes"" : [ ""SOURCE"" ],
    ""licenseComments"" : ""This file contains SPDX-License-Identifiers for (Apache-2.0 AND Apache-2.0)"",
    ""licenseConcluded"" : ""(Apache-2.0 AND Apache-2.0)"",
    ""licenseInfoInFiles"" : [ ""(Apache-2.0 AND Apache-2.0)"" ],
    ""noticeText"" : ""Licensed under the Apache License, Version 2.0 (the \""License\"");\n\t\t  you may not use this file except in compliance with the License.\n\t\t  You may obtain a copy of the License at\n\t\t\n\t\t      http://www.apache.org/licenses/LICENSE-2.0\n\t\t\n\t\t  Unless required by applicable law or agreed to in writing, software\n\t\";
"t  distributed under the License is distributed on an \""AS IS\"" BASIS,\n\t\t  WITHOUT WARRANTIES OR CONDITIONS OF ANY KIND, either express or implied.\n\t\t  See the License for the specific language governing permissions and\n\t\t  limitations under the License.""
  }, {
    ""SPDXID"" : ""SPDXRef-20"",
    ""checksums"" : [ {
      ""algorithm"" : ""SHA1"",
      ""checksumValue"" : ""d5b96882e61d24546c1d3d2506df18505d4aab33""
    } ],
    ""copyrightText"" : ""Copyright (c) 2020 Source Auditor Inc."",
    ""fileContributors"" : [ ""Gary O'Neall"" ],
    ""fileName"" : ""./src/main/java/org/spdx/tools/RdfSchemaToJsonContext.java"",
    ""fileTypes"" : [ ""SOURCE"" ],
    ""licenseComments"" : ""This file contains SPDX-License-Identifiers for Apache-2.0"",
    ""licenseConcluded"" : ""Apache-2.0"",
    ""licenseInfoInFiles"" : [ ""Apache-2.0"" ],
    ""noticeText"" : ""Licensed under the Apache License, Version 2.0 (the \""License\"");\n\t\t  you may not use this file except in compliance with the License.\n\t\t  You may obtain a copy of the License at\n\t\t\n\t\t      http://www.apache.org/licenses/LICENSE-2.0\n\t\t\n\t\t  Unless required by applicable law or agreed to in writing, software\n\t\t  distributed under the License is distributed on an \""AS IS\"" BASIS,\n\t\t  WITHOUT WARRANTIES OR CONDITIONS OF ANY KIND, either express or implied.\n\t\t  See the License for the specific language governing permissions and\n\t\t  limitations under the License.""
  }, {
    ""SPDXID"" : ""SPDXRef-38"",
    ""checksums"" : [ {
      ""algorithm"" : ""SHA1"",
      ""checksumValue"" : ""9c259c1206a610a0d77ac299954a3b626ea358fc""
    } ],
    ""copyrightText"" : ""Copyright (c) 2020 Source Auditor Inc."",
    ""fileContributors"" : [ ""Gary O'Neall"" ],
    ""fileName"" : ""./src/main/java/org/spdx/tools/compare/FileContributorsSheet.java"",
    ""fileTypes"" : [ ""SOURCE"" ],
    ""licenseConcluded"" : ""Apache-2.0"",
    ""licenseInfoInFiles"" : [ ""Apache-2.0"" ],
    ""noticeText"" : ""Licensed under the Apache License, Version 2.0 (the \""License\"");\n\t\t  yo";
"u may not use this file except in compliance with the License.\n\t\t  You may obtain a copy of the License at\n\t\t\n\t\t      http://www.apache.org/licenses/LICENSE-2.0\n\t\t\n\t\t  Unless required by applicable law or agreed to in writing, software\n\t\t  distributed under the License is distributed on an \""AS IS\"" BASIS,\n\t\t  WITHOUT WARRANTIES OR CONDITIONS OF ANY KIND, either express or implied.\n\t\t  See the License for the specific language governing permissions and\n\t\t  limitations under the License.""
  }, {
    ""SPDXID"" : ""SPDXRef-39"",
    ""checksums"" : [ {
      ""algorithm"" : ""SHA1"",
      ""checksumValue"" : ""21577125874bb922a240a9c4fcbfc12981a95913""
    } ],
    ""copyrightText"" : ""Copyright (c) 2020 Source Auditor Inc."",
    ""fileContributors"" : [ ""Gary O'Neall"" ],
    ""fileName"" : ""./src/main/java/org/spdx/tools/compare/ExternalReferencesSheet.java"",
    ""fileTypes"" : [ ""SOURCE"" ],
    ""licenseConcluded"" : ""Apache-2.0"",
    ""licenseInfoInFiles"" : [ ""Apache-2.0"" ],
    ""noticeText"" : ""Licensed under the Apache License, Version 2.0 (the \""License\"");\n\t\t  you may not use this file except in compliance with the License.\n\t\t  You may obtain a copy of the License at\n\t\t\n\t\t      http://www.apache.org/licenses/LICENSE-2.0\n\t\t\n\t\t  Unless required by applicable law or agreed to in writing, software\n\t\t  distributed under the License is distributed on an \""AS IS\"" BASIS,\n\t\t  WITHOUT WARRANTIES OR CONDITIONS OF ANY KIND, either express or implied.\n\t\t  See the License for the specific language governing permissions and\n\t\t  limitations under the License.""
  }, {
    ""SPDXID"" : ""SPDXRef-36"",
    ""checksums"" : [ {
      ""algorithm"" : ""SHA1"",
      ""checksumValue"" : ""713525527c9fad700b15ea8bce870d8b7bc86fce""
    } ],
    ""copyrightText"" : ""Copyright (c) 2020 Source Auditor Inc."",
    ""fileContributors"" : [ ""Gary O'Neall"" ],
    ""fileName"" : ""./src/main/java/org/spdx/tools/compare/FileChecksumSheet.java"",
    ""fileTypes"" : [ ""SOURCE"" ],
    """;
"licenseConcluded"" : ""Apache-2.0"",
    ""licenseInfoInFiles"" : [ ""Apache-2.0"" ],
    ""noticeText"" : ""Licensed under the Apache License, Version 2.0 (the \""License\"");\n\t\t  you may not use this file except in compliance with the License.\n\t\t  You may obtain a copy of the License at\n\t\t\n\t\t      http://www.apache.org/licenses/LICENSE-2.0\n\t\t\n\t\t  Unless required by applicable law or agreed to in writing, software\n\t\t  distributed under the License is distributed on an \""AS IS\"" BASIS,\n\t\t  WITHOUT WARRANTIES OR CONDITIONS OF ANY KIND, either express or implied.\n\t\t  See the License for the specific language governing permissions and\n\t\t  limitations under the License.""
  }, {
    ""SPDXID"" : ""SPDXRef-37"",
    ""checksums"" : [ {
      ""algorithm"" : ""SHA1"",
      ""checksumValue"" : ""6c354e336609486b4e990234b7aa5ad6084348ec""
    } ],
    ""copyrightText"" : ""Copyright (c) 2020 Source Auditor Inc."",
    ""fileContributors"" : [ ""Gary O'Neall"" ],
    ""fileName"" : ""./src/main/java/org/spdx/tools/compare/FileConcludedSheet.java"",
    ""fileTypes"" : [ ""SOURCE"" ],
    ""licenseConcluded"" : ""Apache-2.0"",
    ""licenseInfoInFiles"" : [ ""Apache-2.0"" ],
    ""noticeText"" : ""Licensed under the Apache License, Version 2.0 (the \""License\"");\n\t\t  you may not use this file except in compliance with the License.\n\t\t  You may obtain a copy of the License at\n\t\t\n\t\t      http://www.apache.org/licenses/LICENSE-2.0\n\t\t\n\t\t  Unless required by applicable law or agreed to in writing, software\n\t\t  distributed under the License is distributed on an \""AS IS\"" BASIS,\n\t\t  WITHOUT WARRANTIES OR CONDITIONS OF ANY KIND, either express or implied.\n\t\t  See the License for the specific language governing permissions and\n\t\t  limitations under the License.""
  }, {
    ""SPDXID"" : ""SPDXRef-34"",
    ""checksums"" : [ {
      ""algorithm"" : ""SHA1"",
      ""checksumValue"" : ""06585cd8b3a035447c134a3019f7f48f43ec5dc1""
    } ],
    ""copyrightText"" : ""Copyright (c) 2020 Source Auditor In";
"c."",
    ""fileContributors"" : [ ""Gary O'Neall"" ],
    ""fileName"" : ""./src/main/java/org/spdx/tools/compare/CompareHelper.java"",
    ""fileTypes"" : [ ""SOURCE"" ],
    ""licenseConcluded"" : ""Apache-2.0"",
    ""licenseInfoInFiles"" : [ ""Apache-2.0"" ],
    ""noticeText"" : ""Licensed under the Apache License, Version 2.0 (the \""License\"");\n\t\t  you may not use this file except in compliance with the License.\n\t\t  You may obtain a copy of the License at\n\t\t\n\t\t      http://www.apache.org/licenses/LICENSE-2.0\n\t\t\n\t\t  Unless required by applicable law or agreed to in writing, software\n\t\t  distributed under the License is distributed on an \""AS IS\"" BASIS,\n\t\t  WITHOUT WARRANTIES OR CONDITIONS OF ANY KIND, either express or implied.\n\t\t  See the License for the specific language governing permissions and\n\t\t  limitations under the License.""
  }, {
    ""SPDXID"" : ""SPDXRef-35"",
    ""checksums"" : [ {
      ""algorithm"" : ""SHA1"",
      ""checksumValue"" : ""a7a527c1a96fecdfcc4a513d592c8a65e2023865""
    } ],
    ""copyrightText"" : ""Copyright (c) 2020 Source Auditor Inc."",
    ""fileContributors"" : [ ""Gary O'Neall"" ],
    ""fileName"" : ""./src/main/java/org/spdx/tools/compare/DocumentSheet.java"",
    ""fileTypes"" : [ ""SOURCE"" ],
    ""licenseConcluded"" : ""Apache-2.0"",
    ""licenseInfoInFiles"" : [ ""Apache-2.0"" ],
    ""noticeText"" : ""Licensed under the Apache License, Version 2.0 (the \""License\"");\n\t\t  you may not use this file except in compliance with the License.\n\t\t  You may obtain a copy of the License at\n\t\t\n\t\t      http://www.apache.org/licenses/LICENSE-2.0\n\t\t\n\t\t  Unless required by applicable law or agreed to in writing, software\n\t\t  distributed under the License is distributed on an \""AS IS\"" BASIS,\n\t\t  WITHOUT WARRANTIES OR CONDITIONS OF ANY KIND, either express or implied.\n\t\t  See the License for the specific language governing permissions and\n\t\t  limitations under the License.""
  }, {
    ""SPDXID"" : ""SPDXRef-32"",
    ""checksums"" : [ {
   ";
"   ""algorithm"" : ""SHA1"",
      ""checksumValue"" : ""594adaa68dbbfd931038e1a713cc3bf585e551dd""
    } ],
    ""copyrightText"" : ""Copyright (c) 2020 Source Auditor Inc."",
    ""fileContributors"" : [ ""Gary O'Neall"" ],
    ""fileName"" : ""./src/main/java/org/spdx/tools/compare/FileCommentSheet.java"",
    ""fileTypes"" : [ ""SOURCE"" ],
    ""licenseConcluded"" : ""Apache-2.0"",
    ""licenseInfoInFiles"" : [ ""Apache-2.0"" ],
    ""noticeText"" : ""Licensed under the Apache License, Version 2.0 (the \""License\"");\n\t\t  you may not use this file except in compliance with the License.\n\t\t  You may obtain a copy of the License at\n\t\t\n\t\t      http://www.apache.org/licenses/LICENSE-2.0\n\t\t\n\t\t  Unless required by applicable law or agreed to in writing, software\n\t\t  distributed under the License is distributed on an \""AS IS\"" BASIS,\n\t\t  WITHOUT WARRANTIES OR CONDITIONS OF ANY KIND, either express or implied.\n\t\t  See the License for the specific language governing permissions and\n\t\t  limitations under the License.""
  }, {
    ""SPDXID"" : ""SPDXRef-33"",
    ""checksums"" : [ {
      ""algorithm"" : ""SHA1"",
      ""checksumValue"" : ""bd2072ce80dd7b431d7783e9682bc26318ecaf30""
    } ],
    ""copyrightText"" : ""Copyright (c) 2020 Source Auditor Inc."",
    ""fileContributors"" : [ ""Gary O'Neall"" ],
    ""fileName"" : ""./src/main/java/org/spdx/tools/compare/CreatorSheet.java"",
    ""fileTypes"" : [ ""SOURCE"" ],
    ""licenseConcluded"" : ""Apache-2.0"",
    ""licenseInfoInFiles"" : [ ""Apache-2.0"" ],
    ""noticeText"" : ""Licensed under the Apache License, Version 2.0 (the \""License\"");\n\t\t  you may not use this file except in compliance with the License.\n\t\t  You may obtain a copy of the License at\n\t\t\n\t\t      http://www.apache.org/licenses/LICENSE-2.0\n\t\t\n\t\t  Unless required by applicable law or agreed to in writing, software\n\t\t  distributed under the License is distributed on an \""AS IS\"" BASIS,\n\t\t  WITHOUT WARRANTIES OR CONDITIONS OF ANY KIND, either express or implied.\n\t\t  See th";
"e License for the specific language governing permissions and\n\t\t  limitations under the License.""
  }, {
    ""SPDXID"" : ""SPDXRef-30"",
    ""checksums"" : [ {
      ""algorithm"" : ""SHA1"",
      ""checksumValue"" : ""f05514480ae787e48201070180e8cd975ca15be2""
    } ],
    ""copyrightText"" : ""Copyright (c) 2020 Source Auditor Inc."",
    ""fileContributors"" : [ ""Gary O'Neall"" ],
    ""fileName"" : ""./src/main/java/org/spdx/tools/compare/FileAttributionSheet.java"",
    ""fileTypes"" : [ ""SOURCE"" ],
    ""licenseConcluded"" : ""Apache-2.0"",
    ""licenseInfoInFiles"" : [ ""Apache-2.0"" ],
    ""noticeText"" : ""Licensed under the Apache License, Version 2.0 (the \""License\"");\n\t\t  you may not use this file except in compliance with the License.\n\t\t  You may obtain a copy of the License at\n\t\t\n\t\t      http://www.apache.org/licenses/LICENSE-2.0\n\t\t\n\t\t  Unless required by applicable law or agreed to in writing, software\n\t\t  distributed under the License is distributed on an \""AS IS\"" BASIS,\n\t\t  WITHOUT WARRANTIES OR CONDITIONS OF ANY KIND, either express or implied.\n\t\t  See the License for the specific language governing permissions and\n\t\t  limitations under the License.""
  }, {
    ""SPDXID"" : ""SPDXRef-31"",
    ""checksums"" : [ {
      ""algorithm"" : ""SHA1"",
      ""checksumValue"" : ""85d27dd745bab5b66d7b91f4cbcce8acb7552713""
    } ],
    ""copyrightText"" : ""Copyright (c) 2020 Source Auditor Inc."",
    ""fileContributors"" : [ ""Gary O'Neall"" ],
    ""fileName"" : ""./src/main/java/org/spdx/tools/compare/ExtractedLicenseSheet.java"",
    ""fileTypes"" : [ ""SOURCE"" ],
    ""licenseConcluded"" : ""Apache-2.0"",
    ""licenseInfoInFiles"" : [ ""Apache-2.0"" ],
    ""noticeText"" : ""Licensed under the Apache License, Version 2.0 (the \""License\"");\n\t\t  you may not use this file except in compliance with the License.\n\t\t  You may obtain a copy of the License at\n\t\t\n\t\t      http://www.apache.org/licenses/LICENSE-2.0\n\t\t\n\t\t  Unless required by applicable law or agreed to in writing, so";
"ftware\n\t\t  distributed under the License is distributed on an \""AS IS\"" BASIS,\n\t\t  WITHOUT WARRANTIES OR CONDITIONS OF ANY KIND, either express or implied.\n\t\t  See the License for the specific language governing permissions and\n\t\t  limitations under the License.""
  }, {
    ""SPDXID"" : ""SPDXRef-49"",
    ""checksums"" : [ {
      ""algorithm"" : ""SHA1"",
      ""checksumValue"" : ""39b587027ee2bca8cbb0bf28cb34e99c334bf532""
    } ],
    ""copyrightText"" : ""Copyright (c) 2020 Source Auditor Inc."",
    ""fileContributors"" : [ ""Gary O'Neall"" ],
    ""fileName"" : ""./src/main/java/org/spdx/tools/compare/FileCopyrightSheet.java"",
    ""fileTypes"" : [ ""SOURCE"" ],
    ""licenseConcluded"" : ""Apache-2.0"",
    ""licenseInfoInFiles"" : [ ""Apache-2.0"" ],
    ""noticeText"" : ""Licensed under the Apache License, Version 2.0 (the \""License\"");\n\t\t  you may not use this file except in compliance with the License.\n\t\t  You may obtain a copy of the License at\n\t\t\n\t\t      http://www.apache.org/licenses/LICENSE-2.0\n\t\t\n\t\t  Unless required by applicable law or agreed to in writing, software\n\t\t  distributed under the License is distributed on an \""AS IS\"" BASIS,\n\t\t  WITHOUT WARRANTIES OR CONDITIONS OF ANY KIND, either express or implied.\n\t\t  See the License for the specific language governing permissions and\n\t\t  limitations under the License.""
  }, {
    ""SPDXID"" : ""SPDXRef-40"",
    ""checksums"" : [ {
      ""algorithm"" : ""SHA1"",
      ""checksumValue"" : ""6c36feef2ee0fdc7c3384c6459856e914dad7a89""
    } ],
    ""copyrightText"" : ""Copyright (c) 2020 Source Auditor Inc."",
    ""fileContributors"" : [ ""Gary O'Neall"" ],
    ""fileName"" : ""./src/main/java/org/spdx/tools/compare/PackageSheet.java"",
    ""fileTypes"" : [ ""SOURCE"" ],
    ""licenseConcluded"" : ""Apache-2.0"",
    ""licenseInfoInFiles"" : [ ""Apache-2.0"" ],
    ""noticeText"" : ""Licensed under the Apache License, Version 2.0 (the \""License\"");\n\t\t  you may not use this file except in compliance with the License.\n\t\t  You may ob";
"tain a copy of the License at\n\t\t\n\t\t      http://www.apache.org/licenses/LICENSE-2.0\n\t\t\n\t\t  Unless required by applicable law or agreed to in writing, software\n\t\t  distributed under the License is distributed on an \""AS IS\"" BASIS,\n\t\t  WITHOUT WARRANTIES OR CONDITIONS OF ANY KIND, either express or implied.\n\t\t  See the License for the specific language governing permissions and\n\t\t  limitations under the License.""
  }, {
    ""SPDXID"" : ""SPDXRef-47"",
    ""checksums"" : [ {
      ""algorithm"" : ""SHA1"",
      ""checksumValue"" : ""b2b907f2392115239e3711b57f7e6e83a39c6136""
    } ],
    ""copyrightText"" : ""Copyright (c) 2020 Source Auditor Inc."",
    ""fileContributors"" : [ ""Gary O'Neall"" ],
    ""fileName"" : ""./src/main/java/org/spdx/tools/compare/FileRelationshipSheet.java"",
    ""fileTypes"" : [ ""SOURCE"" ],
    ""licenseConcluded"" : ""Apache-2.0"",
    ""licenseInfoInFiles"" : [ ""Apache-2.0"" ],
    ""noticeText"" : ""Licensed under the Apache License, Version 2.0 (the \""License\"");\n\t\t  you may not use this file except in compliance with the License.\n\t\t  You may obtain a copy of the License at\n\t\t\n\t\t      http://www.apache.org/licenses/LICENSE-2.0\n\t\t\n\t\t  Unless required by applicable law or agreed to in writing, software\n\t\t  distributed under the License is distributed on an \""AS IS\"" BASIS,\n\t\t  WITHOUT WARRANTIES OR CONDITIONS OF ANY KIND, either express or implied.\n\t\t  See the License for the specific language governing permissions and\n\t\t  limitations under the License.""
  }, {
    ""SPDXID"" : ""SPDXRef-48"",
    ""checksums"" : [ {
      ""algorithm"" : ""SHA1"",
      ""checksumValue"" : ""f938b968211f52674cf9ea0a8ce552faa18cc505""
    } ],
    ""copyrightText"" : ""Copyright (c) 2020 Source Auditor Inc."",
    ""fileContributors"" : [ ""Gary O'Neall"" ],
    ""fileName"" : ""./src/main/java/org/spdx/tools/compare/DocumentRelationshipSheet.java"",
    ""fileTypes"" : [ ""SOURCE"" ],
    ""licenseConcluded"" : ""Apache-2.0"",
    ""licenseInfoInFiles"" : [ ""Apache-2.0";
""" ],
    ""noticeText"" : ""Licensed under the Apache License, Version 2.0 (the \""License\"");\n\t\t  you may not use this file except in compliance with the License.\n\t\t  You may obtain a copy of the License at\n\t\t\n\t\t      http://www.apache.org/licenses/LICENSE-2.0\n\t\t\n\t\t  Unless required by applicable law or agreed to in writing, software\n\t\t  distributed under the License is distributed on an \""AS IS\"" BASIS,\n\t\t  WITHOUT WARRANTIES OR CONDITIONS OF ANY KIND, either express or implied.\n\t\t  See the License for the specific language governing permissions and\n\t\t  limitations under the License.""
  }, {
    ""SPDXID"" : ""SPDXRef-45"",
    ""checksums"" : [ {
      ""algorithm"" : ""SHA1"",
      ""checksumValue"" : ""22eaaefbe232d2d86de2e7c76346f536c943fae9""
    } ],
    ""copyrightText"" : ""Copyright (c) 2020 Source Auditor Inc."",
    ""fileContributors"" : [ ""Gary O'Neall"" ],
    ""fileName"" : ""./src/main/java/org/spdx/tools/compare/VerificationSheet.java"",
    ""fileTypes"" : [ ""SOURCE"" ],
    ""licenseConcluded"" : ""Apache-2.0"",
    ""licenseInfoInFiles"" : [ ""Apache-2.0"" ],
    ""noticeText"" : ""Licensed under the Apache License, Version 2.0 (the \""License\"");\n\t\t  you may not use this file except in compliance with the License.\n\t\t  You may obtain a copy of the License at\n\t\t\n\t\t      http://www.apache.org/licenses/LICENSE-2.0\n\t\t\n\t\t  Unless required by applicable law or agreed to in writing, software\n\t\t  distributed under the License is distributed on an \""AS IS\"" BASIS,\n\t\t  WITHOUT WARRANTIES OR CONDITIONS OF ANY KIND, either express or implied.\n\t\t  See the License for the specific language governing permissions and\n\t\t  limitations under the License.""
  }, {
    ""SPDXID"" : ""SPDXRef-46"",
    ""checksums"" : [ {
      ""algorithm"" : ""SHA1"",
      ""checksumValue"" : ""3b8aaf072146d61e2fc05be588eb91b4f4b6282b""
    } ],
    ""copyrightText"" : ""Copyright (c) 2020 Source Auditor Inc."",
    ""fileContributors"" : [ ""Gary O'Neall"" ],
    ""fileName"" : ""./src/m";
"ain/java/org/spdx/tools/compare/FileNoticeSheet.java"",
    ""fileTypes"" : [ ""SOURCE"" ],
    ""licenseConcluded"" : ""Apache-2.0"",
    ""licenseInfoInFiles"" : [ ""Apache-2.0"" ],
    ""noticeText"" : ""Licensed under the Apache License, Version 2.0 (the \""License\"");\n\t\t  you may not use this file except in compliance with the License.\n\t\t  You may obtain a copy of the License at\n\t\t\n\t\t      http://www.apache.org/licenses/LICENSE-2.0\n\t\t\n\t\t  Unless required by applicable law or agreed to in writing, software\n\t\t  distributed under the License is distributed on an \""AS IS\"" BASIS,\n\t\t  WITHOUT WARRANTIES OR CONDITIONS OF ANY KIND, either express or implied.\n\t\t  See the License for the specific language governing permissions and\n\t\t  limitations under the License.""
  }, {
    ""SPDXID"" : ""SPDXRef-43"",
    ""checksums"" : [ {
      ""algorithm"" : ""SHA1"",
      ""checksumValue"" : ""efd0f8f7b2622bf6a08bf115f0483e04cd63759c""
    } ],
    ""copyrightText"" : ""Copyright (c) 2020 Source Auditor Inc."",
    ""fileContributors"" : [ ""Gary O'Neall"" ],
    ""fileName"" : ""./src/main/java/org/spdx/tools/compare/FileTypeSheet.java"",
    ""fileTypes"" : [ ""SOURCE"" ],
    ""licenseConcluded"" : ""Apache-2.0"",
    ""licenseInfoInFiles"" : [ ""Apache-2.0"" ],
    ""noticeText"" : ""Licensed under the Apache License, Version 2.0 (the \""License\"");\n\t\t  you may not use this file except in compliance with the License.\n\t\t  You may obtain a copy of the License at\n\t\t\n\t\t      http://www.apache.org/licenses/LICENSE-2.0\n\t\t\n\t\t  Unless required by applicable law or agreed to in writing, software\n\t\t  distributed under the License is distributed on an \""AS IS\"" BASIS,\n\t\t  WITHOUT WARRANTIES OR CONDITIONS OF ANY KIND, either express or implied.\n\t\t  See the License for the specific language governing permissions and\n\t\t  limitations under the License.""
  }, {
    ""SPDXID"" : ""SPDXRef-44"",
    ""checksums"" : [ {
      ""algorithm"" : ""SHA1"",
      ""checksumValue"" : ""de76546db4747e66c07aa53";
"a8c009c91ca05b34c""
    } ],
    ""copyrightText"" : ""Copyright (c) 2020 Source Auditor Inc."",
    ""fileContributors"" : [ ""Gary O'Neall"" ],
    ""fileName"" : ""./src/main/java/org/spdx/tools/compare/NormalizedFileNameComparator.java"",
    ""fileTypes"" : [ ""SOURCE"" ],
    ""licenseConcluded"" : ""Apache-2.0"",
    ""licenseInfoInFiles"" : [ ""Apache-2.0"" ],
    ""noticeText"" : ""Licensed under the Apache License, Version 2.0 (the \""License\"");\n\t\t  you may not use this file except in compliance with the License.\n\t\t  You may obtain a copy of the License at\n\t\t\n\t\t      http://www.apache.org/licenses/LICENSE-2.0\n\t\t\n\t\t  Unless required by applicable law or agreed to in writing, software\n\t\t  distributed under the License is distributed on an \""AS IS\"" BASIS,\n\t\t  WITHOUT WARRANTIES OR CONDITIONS OF ANY KIND, either express or implied.\n\t\t  See the License for the specific language governing permissions and\n\t\t  limitations under the License.""
  }, {
    ""SPDXID"" : ""SPDXRef-41"",
    ""checksums"" : [ {
      ""algorithm"" : ""SHA1"",
      ""checksumValue"" : ""feb0a1738599bb2ed347959b2a97d34544dff931""
    } ],
    ""copyrightText"" : ""Copyright (c) 2020 Source Auditor Inc."",
    ""fileContributors"" : [ ""Gary O'Neall"" ],
    ""fileName"" : ""./src/main/java/org/spdx/tools/compare/DocumentAnnotationSheet.java"",
    ""fileTypes"" : [ ""SOURCE"" ],
    ""licenseConcluded"" : ""Apache-2.0"",
    ""licenseInfoInFiles"" : [ ""Apache-2.0"" ],
    ""noticeText"" : ""Licensed under the Apache License, Version 2.0 (the \""License\"");\n\t\t  you may not use this file except in compliance with the License.\n\t\t  You may obtain a copy of the License at\n\t\t\n\t\t      http://www.apache.org/licenses/LICENSE-2.0\n\t\t\n\t\t  Unless required by applicable law or agreed to in writing, software\n\t\t  distributed under the License is distributed on an \""AS IS\"" BASIS,\n\t\t  WITHOUT WARRANTIES OR CONDITIONS OF ANY KIND, either express or implied.\n\t\t  See the License for the specific language governing perm";
"issions and\n\t\t  limitations under the License.""
  }, {
    ""SPDXID"" : ""SPDXRef-42"",
    ""checksums"" : [ {
      ""algorithm"" : ""SHA1"",
      ""checksumValue"" : ""d68229fb10fe55548df04881f3d3633f3217f102""
    } ],
    ""copyrightText"" : ""Copyright (c) 2020 Source Auditor Inc."",
    ""fileContributors"" : [ ""Gary O'Neall"" ],
    ""fileName"" : ""./src/main/java/org/spdx/tools/compare/SnippetSheet.java"",
    ""fileTypes"" : [ ""SOURCE"" ],
    ""licenseConcluded"" : ""Apache-2.0"",
    ""licenseInfoInFiles"" : [ ""Apache-2.0"" ],
    ""noticeText"" : ""Licensed under the Apache License, Version 2.0 (the \""License\"");\n\t\t  you may not use this file except in compliance with the License.\n\t\t  You may obtain a copy of the License at\n\t\t\n\t\t      http://www.apache.org/licenses/LICENSE-2.0\n\t\t\n\t\t  Unless required by applicable law or agreed to in writing, software\n\t\t  distributed under the License is distributed on an \""AS IS\"" BASIS,\n\t\t  WITHOUT WARRANTIES OR CONDITIONS OF ANY KIND, either express or implied.\n\t\t  See the License for the specific language governing permissions and\n\t\t  limitations under the License.""
  } ],
  ""relationships"" : [ {
    ""spdxElementId"" : ""SPDXRef-8"",
    ""relationshipType"" : ""TEST_CASE_OF"",
    ""relatedSpdxElement"" : ""SPDXRef-0""
  }, {
    ""spdxElementId"" : ""SPDXRef-8"",
    ""relationshipType"" : ""DYNAMIC_LINK"",
    ""relatedSpdxElement"" : ""SPDXRef-1""
  }, {
    ""spdxElementId"" : ""SPDXRef-8"",
    ""relationshipType"" : ""DYNAMIC_LINK"",
    ""relatedSpdxElement"" : ""SPDXRef-2""
  }, {
    ""spdxElementId"" : ""SPDXRef-8"",
    ""relationshipType"" : ""DYNAMIC_LINK"",
    ""relatedSpdxElement"" : ""SPDXRef-3""
  }, {
    ""spdxElementId"" : ""SPDXRef-8"",
    ""relationshipType"" : ""DYNAMIC_LINK"",
    ""relatedSpdxElement"" : ""SPDXRef-4""
  }, {
    ""spdxElementId"" : ""SPDXRef-8"",
    ""relationshipType"" : ""DYNAMIC_LINK"",
    ""relatedSpdxElement"" : ""SPDXRef-5""
  }, {
    ""spdxElementId"" : ""SPDXRef-8"",
    ""relationshipType"" : ""DYNAMIC_LINK"",
    ""relatedSpdxElement"" : ""SPD";
"XRef-6""
  }, {
    ""spdxElementId"" : ""SPDXRef-8"",
    ""relationshipType"" : ""DYNAMIC_LINK"",
    ""relatedSpdxElement"" : ""SPDXRef-7""
  }, {
    ""spdxElementId"" : ""SPDXRef-9"",
    ""relationshipType"" : ""GENERATES"",
    ""relatedSpdxElement"" : ""SPDXRef-8""
  }, {
    ""spdxElementId"" : ""SPDXRef-50"",
    ""relationshipType"" : ""GENERATES"",
    ""relatedSpdxElement"" : ""SPDXRef-8""
  }, {
    ""spdxElementId"" : ""SPDXRef-51"",
    ""relationshipType"" : ""GENERATES"",
    ""relatedSpdxElement"" : ""SPDXRef-8""
  }, {
    ""spdxElementId"" : ""SPDXRef-58"",
    ""relationshipType"" : ""GENERATES"",
    ""relatedSpdxElement"" : ""SPDXRef-8""
  }, {
    ""spdxElementId"" : ""SPDXRef-59"",
    ""relationshipType"" : ""GENERATES"",
    ""relatedSpdxElement"" : ""SPDXRef-8""
  }, {
    ""spdxElementId"" : ""SPDXRef-56"",
    ""relationshipType"" : ""GENERATES"",
    ""relatedSpdxElement"" : ""SPDXRef-8""
  }, {
    ""spdxElementId"" : ""SPDXRef-57"",
    ""relationshipType"" : ""GENERATES"",
    ""relatedSpdxElement"" : ""SPDXRef-8""
  }, {
    ""spdxElementId"" : ""SPDXRef-54"",
    ""relationshipType"" : ""GENERATES"",
    ""relatedSpdxElement"" : ""SPDXRef-8""
  }, {
    ""spdxElementId"" : ""SPDXRef-55"",
    ""relationshipType"" : ""GENERATES"",
    ""relatedSpdxElement"" : ""SPDXRef-8""
  }, {
    ""spdxElementId"" : ""SPDXRef-52"",
    ""relationshipType"" : ""GENERATES"",
    ""relatedSpdxElement"" : ""SPDXRef-8""
  }, {
    ""spdxElementId"" : ""SPDXRef-53"",
    ""relationshipType"" : ""GENERATES"",
    ""relatedSpdxElement"" : ""SPDXRef-8""
  }, {
    ""spdxElementId"" : ""SPDXRef-61"",
    ""relationshipType"" : ""TEST_CASE_OF"",
    ""relatedSpdxElement"" : ""SPDXRef-8""
  }, {
    ""spdxElementId"" : ""SPDXRef-62"",
    ""relationshipType"" : ""TEST_CASE_OF"",
    ""relatedSpdxElement"" : ""SPDXRef-8""
  }, {
    ""spdxElementId"" : ""SPDXRef-60"",
    ""relationshipType"" : ""TEST_CASE_OF"",
    ""relatedSpdxElement"" : ""SPDXRef-8""
  }, {
    ""spdxElementId"" : ""SPDXRef-69"",
    ""relationshipType"" : ""CONTAINED_BY"",
    ""relatedSpdxElement"" : ""SPDXRef-8""
  }, {
    ""spdxElementId"" : ""SPDXRef-67"",
    ""relationshi";
"pType"" : ""CONTAINED_BY"",
    ""relatedSpdxElement"" : ""SPDXRef-8""
  }, {
    ""spdxElementId"" : ""SPDXRef-68"",
    ""relationshipType"" : ""CONTAINED_BY"",
    ""relatedSpdxElement"" : ""SPDXRef-8""
  }, {
    ""spdxElementId"" : ""SPDXRef-65"",
    ""relationshipType"" : ""CONTAINED_BY"",
    ""relatedSpdxElement"" : ""SPDXRef-8""
  }, {
    ""spdxElementId"" : ""SPDXRef-66"",
    ""relationshipType"" : ""CONTAINED_BY"",
    ""relatedSpdxElement"" : ""SPDXRef-8""
  }, {
    ""spdxElementId"" : ""SPDXRef-63"",
    ""relationshipType"" : ""TEST_CASE_OF"",
    ""relatedSpdxElement"" : ""SPDXRef-8""
  }, {
    ""spdxElementId"" : ""SPDXRef-64"",
    ""relationshipType"" : ""TEST_CASE_OF"",
    ""relatedSpdxElement"" : ""SPDXRef-8""
  }, {
    ""spdxElementId"" : ""SPDXRef-18"",
    ""relationshipType"" : ""GENERATES"",
    ""relatedSpdxElement"" : ""SPDXRef-8""
  }, {
    ""spdxElementId"" : ""SPDXRef-19"",
    ""relationshipType"" : ""GENERATES"",
    ""relatedSpdxElement"" : ""SPDXRef-8""
  }, {
    ""spdxElementId"" : ""SPDXRef-16"",
    ""relationshipType"" : ""GENERATES"",
    ""relatedSpdxElement"" : ""SPDXRef-8""
  }, {
    ""spdxElementId"" : ""SPDXRef-17"",
    ""relationshipType"" : ""GENERATES"",
    ""relatedSpdxElement"" : ""SPDXRef-8""
  }, {
    ""spdxElementId"" : ""SPDXRef-14"",
    ""relationshipType"" : ""GENERATES"",
    ""relatedSpdxElement"" : ""SPDXRef-8""
  }, {
    ""spdxElementId"" : ""SPDXRef-15"",
    ""relationshipType"" : ""GENERATES"",
    ""relatedSpdxElement"" : ""SPDXRef-8""
  }, {
    ""spdxElementId"" : ""SPDXRef-12"",
    ""relationshipType"" : ""GENERATES"",
    ""relatedSpdxElement"" : ""SPDXRef-8""
  }, {
    ""spdxElementId"" : ""SPDXRef-13"",
    ""relationshipType"" : ""GENERATES"",
    ""relatedSpdxElement"" : ""SPDXRef-8""
  }, {
    ""spdxElementId"" : ""SPDXRef-10"",
    ""relationshipType"" : ""GENERATES"",
    ""relatedSpdxElement"" : ""SPDXRef-8""
  }, {
    ""spdxElementId"" : ""SPDXRef-11"",
    ""relationshipType"" : ""GENERATES"",
    ""relatedSpdxElement"" : ""SPDXRef-8""
  }, {
    ""spdxElementId"" : ""SPDXRef-29"",
    ""relationshipType"" : ""GENERATES"",
    ""relatedSpdxElement"" : ""SPDXRef-8""
 ";
" }, {
    ""spdxElementId"" : ""SPDXRef-27"",
    ""relationshipType"" : ""GENERATES"",
    ""relatedSpdxElement"" : ""SPDXRef-8""
  }, {
    ""spdxElementId"" : ""SPDXRef-28"",
    ""relationshipType"" : ""GENERATES"",
    ""relatedSpdxElement"" : ""SPDXRef-8""
  }, {
    ""spdxElementId"" : ""SPDXRef-25"",
    ""relationshipType"" : ""GENERATES"",
    ""relatedSpdxElement"" : ""SPDXRef-8""
  }, {
    ""spdxElementId"" : ""SPDXRef-26"",
    ""relationshipType"" : ""GENERATES"",
    ""relatedSpdxElement"" : ""SPDXRef-8""
  }, {
    ""spdxElementId"" : ""SPDXRef-23"",
    ""relationshipType"" : ""GENERATES"",
    ""relatedSpdxElement"" : ""SPDXRef-8""
  }, {
    ""spdxElementId"" : ""SPDXRef-24"",
    ""relationshipType"" : ""GENERATES"",
    ""relatedSpdxElement"" : ""SPDXRef-8""
  }, {
    ""spdxElementId"" : ""SPDXRef-21"",
    ""relationshipType"" : ""GENERATES"",
    ""relatedSpdxElement"" : ""SPDXRef-8""
  }, {
    ""spdxElementId"" : ""SPDXRef-22"",
    ""relationshipType"" : ""GENERATES"",
    ""relatedSpdxElement"" : ""SPDXRef-8""
  }, {
    ""spdxElementId"" : ""SPDXRef-20"",
    ""relationshipType"" : ""GENERATES"",
    ""relatedSpdxElement"" : ""SPDXRef-8""
  }, {
    ""spdxElementId"" : ""SPDXRef-38"",
    ""relationshipType"" : ""GENERATES"",
    ""relatedSpdxElement"" : ""SPDXRef-8""
  }, {
    ""spdxElementId"" : ""SPDXRef-39"",
    ""relationshipType"" : ""GENERATES"",
    ""relatedSpdxElement"" : ""SPDXRef-8""
  }, {
    ""spdxElementId"" : ""SPDXRef-36"",
    ""relationshipType"" : ""GENERATES"",
    ""relatedSpdxElement"" : ""SPDXRef-8""
  }, {
    ""spdxElementId"" : ""SPDXRef-37"",
    ""relationshipType"" : ""GENERATES"",
    ""relatedSpdxElement"" : ""SPDXRef-8""
  }, {
    ""spdxElementId"" : ""SPDXRef-34"",
    ""relationshipType"" : ""GENERATES"",
    ""relatedSpdxElement"" : ""SPDXRef-8""
  }, {
    ""spdxElementId"" : ""SPDXRef-35"",
    ""relationshipType"" : ""GENERATES"",
    ""relatedSpdxElement"" : ""SPDXRef-8""
  }, {
    ""spdxElementId"" : ""SPDXRef-32"",
    ""relationshipType"" : ""GENERATES"",
    ""relatedSpdxElement"" : ""SPDXRef-8""
  }, {
    ""spdxElementId"" : ""SPDXRef-33"",
    ""relationshipType"" : ""GENERATES"",
";
"    ""relatedSpdxElement"" : ""SPDXRef-8""
  }, {
    ""spdxElementId"" : ""SPDXRef-30"",
    ""relationshipType"" : ""GENERATES"",
    ""relatedSpdxElement"" : ""SPDXRef-8""
  }, {
    ""spdxElementId"" : ""SPDXRef-31"",
    ""relationshipType"" : ""GENERATES"",
    ""relatedSpdxElement"" : ""SPDXRef-8""
  }, {
    ""spdxElementId"" : ""SPDXRef-49"",
    ""relationshipType"" : ""GENERATES"",
    ""relatedSpdxElement"" : ""SPDXRef-8""
  }, {
    ""spdxElementId"" : ""SPDXRef-40"",
    ""relationshipType"" : ""GENERATES"",
    ""relatedSpdxElement"" : ""SPDXRef-8""
  }, {
    ""spdxElementId"" : ""SPDXRef-47"",
    ""relationshipType"" : ""GENERATES"",
    ""relatedSpdxElement"" : ""SPDXRef-8""
  }, {
    ""spdxElementId"" : ""SPDXRef-48"",
    ""relationshipType"" : ""GENERATES"",
    ""relatedSpdxElement"" : ""SPDXRef-8""
  }, {
    ""spdxElementId"" : ""SPDXRef-45"",
    ""relationshipType"" : ""GENERATES"",
    ""relatedSpdxElement"" : ""SPDXRef-8""
  }, {
    ""spdxElementId"" : ""SPDXRef-46"",
    ""relationshipType"" : ""GENERATES"",
    ""relatedSpdxElement"" : ""SPDXRef-8""
  }, {
    ""spdxElementId"" : ""SPDXRef-43"",
    ""relationshipType"" : ""GENERATES"",
    ""relatedSpdxElement"" : ""SPDXRef-8""
  }, {
    ""spdxElementId"" : ""SPDXRef-44"",
    ""relationshipType"" : ""GENERATES"",
    ""relatedSpdxElement"" : ""SPDXRef-8""
  }, {
    ""spdxElementId"" : ""SPDXRef-41"",
    ""relationshipType"" : ""GENERATES"",
    ""relatedSpdxElement"" : ""SPDXRef-8""
  }, {
    ""spdxElementId"" : ""SPDXRef-42"",
    ""relationshipType"" : ""GENERATES"",
    ""relatedSpdxElement"" : ""SPDXRef-8""
  } ]
}"].
(** /repo/json/test_fixtures/spdx2_2_null_package.json *)
Definition null_package_22 : string := String.concat "" [
"{
  ""SPDXID"" : ""SPDXRef-DOCUMENT"",
  ""spdxVersion"" : ""SPDX-2.2"",
  ""creationInfo"" : {
    ""created"" : ""2023-07-18T12:27:48Z"",
    ""creators"" : [ ""Tool: spdx-tools"" ]
  },
  ""name"" : ""null-package-doc"",
  ""dataLicense"" : ""CC0-1.0"",
  ""documentNamespace"" : ""test"",
  ""packages"" : [ null ]
}
"].
(** /repo/json/test_fixtures/spdx2_3_null_package.json *)
Definition null_package_23 : string := String.concat "" [
"{
  ""SPDXID"" : ""SPDXRef-DOCUMENT"",
  ""spdxVersion"" : ""SPDX-2.3"",
  ""creationInfo"" : {
    ""created"" : ""2023-07-18T12:27:48Z"",
    ""creators"" : [ ""Tool: spdx-tools"" ]
  },
  ""name"" : ""null-package-doc"",
  ""dataLicense"" : ""CC0-1.0"",
  ""documentNamespace"" : ""test"",
  ""packages"" : [ null ]
}
"].
(** /repo/spdx/v2/v2_2/json/testdata/spdx-null-relationships.json *)
Definition null_relationships_22 : string := String.concat "" [
"{
    ""files"": [ {
        ""fileName"": ""./Microsoft.CSharp.dll"",
        ""SPDXID"": ""SPDXRef-File--Microsoft.CSharp.dll-E226415EEA8ABBBA041A635582440F75E873395C"",
        ""checksums"": [
            {
                ""algorithm"": ""SHA256"",
                ""checksumValue"": ""696b0b0d6ac06e620efd58db6f5f2e15fa2c9b91ddf8774ab8768c958d593254""
            },
            {
                ""algorithm"": ""SHA1"",
                ""checksumValue"": ""e226415eea8abbba041a635582440f75e873395c""
            }
        ],
        ""licenseConcluded"": ""NOASSERTION"",
        ""licenseInfoInFile"": [
            ""NOASSERTION""
        ],
        ""copyrightText"": ""NOASSERTION""
    }],
    ""packages"": [
        {
            ""name"": ""read-pkg"",
            ""SPDXID"": ""SPDXRef-Package-read-pkg-1.1.0-30839A4052AC42B4E1CAB4B52EBC7DE7B94BB36D"",
            ""versionInfo"": ""1.1.0""
        },
        {
            ""name"": ""read-pkg"",
            ""SPDXID"": ""SPDXRef-Package-read-pkg-1.1.0-30839A4052AC42B4E1CAB4B52EBC7DE7B94BB36D"",
            ""versionInfo"": ""1.1.0""
        }
    ],
    ""relationships"": [
        null,
        {

        },
        null,
        {

        },
        null
    ],
    ""spdxVersion"": ""SPDX-2.2"",
    ""dataLicense"": ""CC0-1.0"",
    ""SPDXID"": ""SPDXRef-DOCUMENT"",
    ""name"": ""Coordinated Packages 229170"",
    ""documentNamespace"": ""https://sbom.microsoft/1:2QSF7qZlbE-F7QrUJlEo7g:pHp_nUFvDUijZ4LrJ4RhoQ/696:229170/F8kPc6dwY0WXD1Rkc2z6cg"",
    ""creationInfo"": {
        ""created"": ""2021-12-08T21:06:16Z"",
        ""creators"": [
            ""Organization: Microsoft"",
            ""Tool: Microsoft.SBOMTool-2.0.88""
        ]
    }
}
"].
(** /repo/spdx/v2/v2_3/json/testdata/spdx-null-relationships.json *)
Definition null_relationships_23 : string := String.concat "" [
"{
    ""files"": [ {
        ""fileName"": ""./Microsoft.CSharp.dll"",
        ""SPDXID"": ""SPDXRef-File--Microsoft.CSharp.dll-E226415EEA8ABBBA041A635582440F75E873395C"",
        ""checksums"": [
            {
                ""algorithm"": ""SHA256"",
                ""checksumValue"": ""696b0b0d6ac06e620efd58db6f5f2e15fa2c9b91ddf8774ab8768c958d593254""
            },
            {
                ""algorithm"": ""SHA1"",
                ""checksumValue"": ""e226415eea8abbba041a635582440f75e873395c""
            }
        ],
        ""licenseConcluded"": ""NOASSERTION"",
        ""licenseInfoInFile"": [
            ""NOASSERTION""
        ],
        ""copyrightText"": ""NOASSERTION""
    }],
    ""packages"": [
        {
            ""name"": ""read-pkg"",
            ""SPDXID"": ""SPDXRef-Package-read-pkg-1.1.0-30839A4052AC42B4E1CAB4B52EBC7DE7B94BB36D"",
            ""versionInfo"": ""1.1.0""
        },
        {
            ""name"": ""read-pkg"",
            ""SPDXID"": ""SPDXRef-Package-read-pkg-1.1.0-30839A4052AC42B4E1CAB4B52EBC7DE7B94BB36D"",
            ""versionInfo"": ""1.1.0""
        }
    ],
    ""relationships"": [
        null,
        {

        },
        null,
        {

        },
        null
    ],
    ""spdxVersion"": ""SPDX-2.3"",
    ""dataLicense"": ""CC0-1.0"",
    ""SPDXID"": ""SPDXRef-DOCUMENT"",
    ""name"": ""Coordinated Packages 229170"",
    ""documentNamespace"": ""https://sbom.microsoft/1:2QSF7qZlbE-F7QrUJlEo7g:pHp_nUFvDUijZ4LrJ4RhoQ/696:229170/F8kPc6dwY0WXD1Rkc2z6cg"",
    ""creationInfo"": {
        ""created"": ""2021-12-08T21:06:16Z"",
        ""creators"": [
            ""Organization: Microsoft"",
            ""Tool: Microsoft.SBOMTool-2.0.88""
        ]
    }
}
"].
