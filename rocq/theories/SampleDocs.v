(** * The handwritten documents of /repo (generated by tools/gen_samples.py). *)
From Verif Require Import GoStr Types Json.
Local Open Scope string_scope.

(** /repo/spdx/v2/v2_2/example/example.go 25-427 *)
Definition example_22 : Document :=
(set_d_Relationships [(set_r_Relationship ("CONTAINS")
 (set_r_RefB (MkDEID "" "Package" "")
 (set_r_RefA (MkDEID "" "DOCUMENT" "")
 zero_Relationship))); (set_r_Relationship ("CONTAINS")
 (set_r_RefB (MkDEID "" "CommonsLangSrc" "")
 (set_r_RefA (MkDEID "" "Package" "")
 zero_Relationship))); (set_r_Relationship ("CONTAINS")
 (set_r_RefB (MkDEID "" "DoapSource" "")
 (set_r_RefA (MkDEID "" "Package" "")
 zero_Relationship))); (set_r_Relationship ("COPY_OF")
 (set_r_RefB (MkDEID "spdx-tool-1.2" "ToolsElement" "")
 (set_r_RefA (MkDEID "" "DOCUMENT" "")
 zero_Relationship))); (set_r_Relationship ("DESCRIBES")
 (set_r_RefB (MkDEID "" "File" "")
 (set_r_RefA (MkDEID "" "DOCUMENT" "")
 zero_Relationship))); (set_r_Relationship ("DESCRIBES")
 (set_r_RefB (MkDEID "" "Package" "")
 (set_r_RefA (MkDEID "" "DOCUMENT" "")
 zero_Relationship))); (set_r_Relationship ("CONTAINS")
 (set_r_RefB (MkDEID "" "JenaLib" "")
 (set_r_RefA (MkDEID "" "Package" "")
 zero_Relationship))); (set_r_Relationship ("DYNAMIC_LINK")
 (set_r_RefB (MkDEID "" "Saxon" "")
 (set_r_RefA (MkDEID "" "Package" "")
 zero_Relationship))); (set_r_Relationship ("GENERATED_FROM")
 (set_r_RefB (MkDEID "" "" "NOASSERTION")
 (set_r_RefA (MkDEID "" "CommonsLangSrc" "")
 zero_Relationship))); (set_r_Relationship ("CONTAINS")
 (set_r_RefB (MkDEID "" "Package" "")
 (set_r_RefA (MkDEID "" "JenaLib" "")
 zero_Relationship))); (set_r_Relationship ("GENERATED_FROM")
 (set_r_RefB (MkDEID "" "fromDoap-0" "")
 (set_r_RefA (MkDEID "" "File" "")
 zero_Relationship)))]
 (set_d_Snippets [(set_s_Name ("from linux kernel")
 (set_s_Comment ("This snippet was identified as significant and highlighted in this Apache-2.0 file, when a commercial scanner identified it as being derived from file foo.c in package xyz which is licensed under GPL-2.0.")
 (set_s_CopyrightText ("Copyright 2008-2010 John Smith")
 (set_s_LicenseComments ("The concluded license was taken from package xyz, from which the snippet was copied into the current file. The concluded license information was found in the COPYING.txt file in package xyz.")
 (set_s_LicenseInfoInSnippet [("GPL-2.0-only")]
 (set_s_LicenseConcluded ("GPL-2.0-only")
 (set_s_Ranges [(set_sr_EndPointer (set_rp_FileSPDXIdentifier ("DoapSource")
 (set_rp_Offset (420)%Z
 zero_RangePointer))
 (set_sr_StartPointer (set_rp_FileSPDXIdentifier ("DoapSource")
 (set_rp_Offset (310)%Z
 zero_RangePointer))
 zero_SnippetRange)); (set_sr_EndPointer (set_rp_FileSPDXIdentifier ("DoapSource")
 (set_rp_LineNumber (23)%Z
 zero_RangePointer))
 (set_sr_StartPointer (set_rp_FileSPDXIdentifier ("DoapSource")
 (set_rp_LineNumber (5)%Z
 zero_RangePointer))
 zero_SnippetRange))]
 (set_s_FromFile ("DoapSource")
 (set_s_SPDXIdentifier ("Snippet")
 zero_Snippet)))))))))]
 (set_d_Files [(set_f_Contributors [("Protecode Inc."); ("SPDX Technical Team Members"); ("Open Logic Inc."); ("Source Auditor Inc."); ("Black Duck Software In.c")]
 (set_f_CopyrightText ("Copyright 2010, 2011 Source Auditor Inc.")
 (set_f_LicenseInfoInFiles [("Apache-2.0")]
 (set_f_LicenseConcluded ("Apache-2.0")
 (set_f_Checksums [(set_ck_Value ("2fd4e1c67a2d28fced849ee1bb76e7391b93eb12")
 (set_ck_Algorithm ("SHA1")
 zero_Checksum))]
 (set_f_FileTypes [("SOURCE")]
 (set_f_SPDXIdentifier ("DoapSource")
 (set_f_FileName ("./src/org/spdx/parser/DOAPProject.java")
 zero_FileOf)))))))); (set_f_Notice ("Apache Commons Lang
Copyright 2001-2011 The Apache Software Foundation

This product includes software developed by
The Apache Software Foundation (http://www.apache.org/).

This product includes software from the Spring Framework,
under the Apache License 2.0 (see: StringUtils.containsWhitespace())")
 (set_f_LicenseInfoInFiles [("Apache-2.0")]
 (set_f_LicenseConcluded ("Apache-2.0")
 (set_f_FileTypes [("ARCHIVE")]
 (set_f_FileName ("./lib-source/commons-lang3-3.1-sources.jar")
 (set_f_Contributors [("Apache Software Foundation")]
 (set_f_CopyrightText ("Copyright 2001-2011 The Apache Software Foundation")
 (set_f_Comment ("This file is used by Jena")
 (set_f_Checksums [(set_ck_Value ("c2b4e1c67a2d28fced849ee1bb76e7391b93f125")
 (set_ck_Algorithm ("SHA1")
 zero_Checksum))]
 (set_f_SPDXIdentifier ("CommonsLangSrc")
 zero_FileOf)))))))))); (set_f_LicenseInfoInFiles [("LicenseRef-1")]
 (set_f_LicenseConcluded ("LicenseRef-1")
 (set_f_LicenseComments ("This license is used by Jena")
 (set_f_FileTypes [("ARCHIVE")]
 (set_f_FileName ("./lib-source/jena-2.6.3-sources.jar")
 (set_f_Contributors [("Apache Software Foundation"); ("Hewlett Packard Inc.")]
 (set_f_CopyrightText ("(c) Copyright 2000, 2001, 2002, 2003, 2004, 2005, 2006, 2007, 2008, 2009 Hewlett-Packard Development Company, LP")
 (set_f_Comment ("This file belongs to Jena")
 (set_f_Checksums [(set_ck_Value ("3ab4e1c67a2d28fced849ee1bb76e7391b93f125")
 (set_ck_Algorithm ("SHA1")
 zero_Checksum))]
 (set_f_SPDXIdentifier ("JenaLib")
 zero_FileOf)))))))))); (set_f_Notice ("Copyright (c) 2001 Aaron Lehmann aaroni@vitelus.com

Permission is hereby granted, free of charge, to any person obtaining a copy of this software and associated documentation files (the �Software�), to deal in the Software without restriction, including without limitation the rights to use, copy, modify, merge, publish, distribute, sublicense, and/or sell copies of the Software, and to permit persons to whom the Software is furnished to do so, subject to the following conditions: 
The above copyright notice and this permission notice shall be included in all copies or substantial portions of the Software.

THE SOFTWARE IS PROVIDED �AS IS', WITHOUT WARRANTY OF ANY KIND, EXPRESS OR IMPLIED, INCLUDING BUT NOT LIMITED TO THE WARRANTIES OF MERCHANTABILITY, FITNESS FOR A PARTICULAR PURPOSE AND NONINFRINGEMENT.  IN NO EVENT SHALL THE AUTHORS OR COPYRIGHT HOLDERS BE LIABLE FOR ANY CLAIM, DAMAGES OR OTHER LIABILITY, WHETHER IN AN ACTION OF CONTRACT, TORT OR OTHERWISE, ARISING FROM, OUT OF OR IN CONNECTION WITH THE SOFTWARE OR THE USE OR OTHER DEALINGS IN THE SOFTWARE.")
 (set_f_LicenseInfoInFiles [("GPL-2.0-only"); ("LicenseRef-2")]
 (set_f_LicenseConcluded ("(LGPL-2.0-only OR LicenseRef-2)")
 (set_f_LicenseComments ("The concluded license was taken from the package level that the file was included in.")
 (set_f_FileTypes [("SOURCE")]
 (set_f_FileName ("./package/foo.c")
 (set_f_Contributors [("The Regents of the University of California"); ("Modified by Paul Mundt lethal@linux-sh.org"); ("IBM Corporation")]
 (set_f_CopyrightText ("Copyright 2008-2010 John Smith")
 (set_f_Comment ("The concluded license was taken from the package level that the file was included in.
This information was found in the COPYING.txt file in the xyz directory.")
 (set_f_Checksums [(set_ck_Value ("d6a770ba38583ed4bb4525bd96e50461655d2758")
 (set_ck_Algorithm ("SHA1")
 zero_Checksum)); (set_ck_Value ("624c1abb3664f4b35547e7c73864ad24")
 (set_ck_Algorithm ("MD5")
 zero_Checksum))]
 (set_f_Annotations [(set_a_Comment ("File level annotation")
 (set_a_Type ("OTHER")
 (set_a_Date ("2011-01-29T18:30:22Z")
 (set_a_Annotator (set_an_AnnotatorType ("Person")
 (set_an_Annotator ("File Commenter")
 zero_Annotator))
 zero_Annotation))))]
 (set_f_SPDXIdentifier ("File")
 zero_FileOf))))))))))))]
 (set_d_Packages [(set_p_Annotations [(set_a_Comment ("Package level annotation")
 (set_a_Type ("OTHER")
 (set_a_Date ("2011-01-29T18:30:22Z")
 (set_a_Annotator (set_an_AnnotatorType ("Person")
 (set_an_Annotator ("Package Commenter")
 zero_Annotator))
 zero_Annotation))))]
 (set_p_Files []
 (set_p_AttributionTexts [("The GNU C Library is free software.  See the file COPYING.LIB for copying conditions, and LICENSES for notices about a few contributions that require these additional notices to be distributed.  License copyright years may be listed using range notation, e.g., 1996-2015, indicating that every year in the range, inclusive, is a copyrightable year that would otherwise be listed individually.")]
 (set_p_ExternalReferences [(set_er_Locator ("cpe:2.3:a:pivotal_software:spring_framework:4.1.0:*:*:*:*:*:*:*")
 (set_er_RefType ("cpe23Type")
 (set_er_Category ("SECURITY")
 zero_ExternalRef))); (set_er_Comment ("This is the external ref for Acme")
 (set_er_Locator ("acmecorp/acmenator/4.1.3-alpha")
 (set_er_RefType ("http://spdx.org/spdxdocs/spdx-example-444504E0-4F89-41D3-9A0C-0305E82C3301#LocationRef-acmeforge")
 (set_er_Category ("OTHER")
 zero_ExternalRef))))]
 (set_p_Comment ("")
 (set_p_Description ("The GNU C Library defines functions that are specified by the ISO C standard, as well as additional features specific to POSIX and other derivatives of the Unix operating system, and extensions specific to GNU systems.")
 (set_p_Summary ("GNU C library.")
 (set_p_CopyrightText ("Copyright 2008-2010 John Smith")
 (set_p_LicenseComments ("The license for this project changed with the release of version x.y.  The version of the project included here post-dates the license change.")
 (set_p_LicenseDeclared ("(LGPL-2.0-only AND LicenseRef-3)")
 (set_p_LicenseInfoFromFiles [("GPL-2.0-only"); ("LicenseRef-2"); ("LicenseRef-1")]
 (set_p_LicenseConcluded ("(LGPL-2.0-only OR LicenseRef-3)")
 (set_p_SourceInfo ("uses glibc-2_11-branch from git://sourceware.org/git/glibc.git.")
 (set_p_HomePage ("http://ftp.gnu.org/gnu/glibc")
 (set_p_Checksums [(set_ck_Value ("624c1abb3664f4b35547e7c73864ad24")
 (set_ck_Algorithm ("MD5")
 zero_Checksum)); (set_ck_Value ("85ed0817af83a24ad8da68c2b5094de69833983c")
 (set_ck_Algorithm ("SHA1")
 zero_Checksum)); (set_ck_Value ("11b6d3ee554eedf79299905a98f9b9a04e498210b59f15094c916c91d150efcd")
 (set_ck_Algorithm ("SHA256")
 zero_Checksum))]
 (set_p_VerificationCode (Some (set_vc_ExcludedFiles [("./package.spdx")]
 (set_vc_Value ("d6a770ba38583ed4bb4525bd96e50461655d2758")
 zero_VerificationCode)))
 (set_p_IsFilesAnalyzedTagPresent true
 (set_p_FilesAnalyzed true
 (set_p_DownloadLocation ("http://ftp.gnu.org/gnu/glibc/glibc-ports-2.15.tar.gz")
 (set_p_Originator (Some (set_or_OriginatorType ("Organization")
 (set_or_Originator ("ExampleCodeInspect (contact@example.com)")
 zero_Originator)))
 (set_p_Supplier (Some (set_su_SupplierType ("Person")
 (set_su_Supplier ("Jane Doe (jane.doe@example.com)")
 zero_Supplier)))
 (set_p_FileName ("glibc-2.11.1.tar.gz")
 (set_p_Version ("2.11.1")
 (set_p_SPDXIdentifier ("Package")
 (set_p_PackageName ("glibc")
 zero_PackageOf))))))))))))))))))))))))); (set_p_PackageName ("Apache Commons Lang")
 (set_p_LicenseDeclared ("NOASSERTION")
 (set_p_LicenseConcluded ("NOASSERTION")
 (set_p_HomePage ("http://commons.apache.org/proper/commons-lang/")
 (set_p_IsFilesAnalyzedTagPresent true
 (set_p_FilesAnalyzed false
 (set_p_DownloadLocation ("NOASSERTION")
 (set_p_CopyrightText ("NOASSERTION")
 (set_p_SPDXIdentifier ("fromDoap-1")
 zero_PackageOf))))))))); (set_p_Version ("3.12.0")
 (set_p_LicenseDeclared ("NOASSERTION")
 (set_p_LicenseConcluded ("NOASSERTION")
 (set_p_HomePage ("http://www.openjena.org/")
 (set_p_IsFilesAnalyzedTagPresent false
 (set_p_FilesAnalyzed true
 (set_p_ExternalReferences [(set_er_Locator ("pkg:maven/org.apache.jena/apache-jena@3.12.0")
 (set_er_RefType ("purl")
 (set_er_Category ("PACKAGE-MANAGER")
 zero_ExternalRef)))]
 (set_p_DownloadLocation ("https://search.maven.org/remotecontent?filepath=org/apache/jena/apache-jena/3.12.0/apache-jena-3.12.0.tar.gz")
 (set_p_CopyrightText ("NOASSERTION")
 (set_p_SPDXIdentifier ("fromDoap-0")
 (set_p_PackageName ("Jena")
 zero_PackageOf))))))))))); (set_p_Version ("8.8")
 (set_p_FileName ("saxonB-8.8.zip")
 (set_p_PackageName ("Saxon")
 (set_p_LicenseDeclared ("MPL-1.0")
 (set_p_LicenseConcluded ("MPL-1.0")
 (set_p_LicenseComments ("Other versions available for a commercial license")
 (set_p_HomePage ("http://saxon.sourceforge.net/")
 (set_p_IsFilesAnalyzedTagPresent true
 (set_p_FilesAnalyzed false
 (set_p_DownloadLocation ("https://sourceforge.net/projects/saxon/files/Saxon-B/8.8.0.7/saxonb8-8-0-7j.zip/download")
 (set_p_Description ("The Saxon package is a collection of tools for processing XML documents.")
 (set_p_CopyrightText ("Copyright Saxonica Ltd")
 (set_p_Checksums [(set_ck_Value ("85ed0817af83a24ad8da68c2b5094de69833983c")
 (set_ck_Algorithm ("SHA1")
 zero_Checksum))]
 (set_p_SPDXIdentifier ("Saxon")
 zero_PackageOf))))))))))))))]
 (set_d_Annotations [(set_a_Comment ("Document level annotation")
 (set_a_Type ("OTHER")
 (set_a_Date ("2010-01-29T18:30:22Z")
 (set_a_Annotator (set_an_AnnotatorType ("Person")
 (set_an_Annotator ("Jane Doe ()")
 zero_Annotator))
 zero_Annotation)))); (set_a_Comment ("This is just an example.  Some of the non-standard licenses look like they are actually BSD 3 clause licenses")
 (set_a_Type ("REVIEW")
 (set_a_Date ("2010-02-10T00:00:00Z")
 (set_a_Annotator (set_an_AnnotatorType ("Person")
 (set_an_Annotator ("Joe Reviewer")
 zero_Annotator))
 zero_Annotation)))); (set_a_Comment ("Another example reviewer.")
 (set_a_Type ("REVIEW")
 (set_a_Date ("2011-03-13T00:00:00Z")
 (set_a_Annotator (set_an_AnnotatorType ("Person")
 (set_an_Annotator ("Suzanne Reviewer")
 zero_Annotator))
 zero_Annotation))))]
 (set_d_OtherLicenses [(set_ol_ExtractedText ("/*
 * (c) Copyright 2000, 2001, 2002, 2003, 2004, 2005, 2006, 2007, 2008, 2009 Hewlett-Packard Development Company, LP
 * All rights reserved.
 *
 * Redistribution and use in source and binary forms, with or without
 * modification, are permitted provided that the following conditions
 * are met:
 * 1. Redistributions of source code must retain the above copyright
 *    notice, this list of conditions and the following disclaimer.
 * 2. Redistributions in binary form must reproduce the above copyright
 *    notice, this list of conditions and the following disclaimer in the
 *    documentation and/or other materials provided with the distribution.
 * 3. The name of the author may not be used to endorse or promote products
 *    derived from this software without specific prior written permission.
 *
 * THIS SOFTWARE IS PROVIDED BY THE AUTHOR ``AS IS'' AND ANY EXPRESS OR
 * IMPLIED WARRANTIES, INCLUDING, BUT NOT LIMITED TO, THE IMPLIED WARRANTIES
 * OF MERCHANTABILITY AND FITNESS FOR A PARTICULAR PURPOSE ARE DISCLAIMED.
 * IN NO EVENT SHALL THE AUTHOR BE LIABLE FOR ANY DIRECT, INDIRECT,
 * INCIDENTAL, SPECIAL, EXEMPLARY, OR CONSEQUENTIAL DAMAGES (INCLUDING, BUT
 * NOT LIMITED TO, PROCUREMENT OF SUBSTITUTE GOODS OR SERVICES; LOSS OF USE,
 * DATA, OR PROFITS; OR BUSINESS INTERRUPTION) HOWEVER CAUSED AND ON ANY
 * THEORY OF LIABILITY, WHETHER IN CONTRACT, STRICT LIABILITY, OR TORT
 * (INCLUDING NEGLIGENCE OR OTHERWISE) ARISING IN ANY WAY OUT OF THE USE OF
 * THIS SOFTWARE, EVEN IF ADVISED OF THE POSSIBILITY OF SUCH DAMAGE.
*/")
 (set_ol_LicenseIdentifier ("LicenseRef-1")
 zero_OtherLicense)); (set_ol_ExtractedText ("This package includes the GRDDL parser developed by Hewlett Packard under the following license:
� Copyright 2007 Hewlett-Packard Development Company, LP

Redistribution and use in source and binary forms, with or without modification, are permitted provided that the following conditions are met: 

Redistributions of source code must retain the above copyright notice, this list of conditions and the following disclaimer. 
Redistributions in binary form must reproduce the above copyright notice, this list of conditions and the following disclaimer in the documentation and/or other materials provided with the distribution. 
The name of the author may not be used to endorse or promote products derived from this software without specific prior written permission. 
THIS SOFTWARE IS PROVIDED BY THE AUTHOR ``AS IS'' AND ANY EXPRESS OR IMPLIED WARRANTIES, INCLUDING, BUT NOT LIMITED TO, THE IMPLIED WARRANTIES OF MERCHANTABILITY AND FITNESS FOR A PARTICULAR PURPOSE ARE DISCLAIMED. IN NO EVENT SHALL THE AUTHOR BE LIABLE FOR ANY DIRECT, INDIRECT, INCIDENTAL, SPECIAL, EXEMPLARY, OR CONSEQUENTIAL DAMAGES (INCLUDING, BUT NOT LIMITED TO, PROCUREMENT OF SUBSTITUTE GOODS OR SERVICES; LOSS OF USE, DATA, OR PROFITS; OR BUSINESS INTERRUPTION) HOWEVER CAUSED AND ON ANY THEORY OF LIABILITY, WHETHER IN CONTRACT, STRICT LIABILITY, OR TORT (INCLUDING NEGLIGENCE OR OTHERWISE) ARISING IN ANY WAY OUT OF THE USE OF THIS SOFTWARE, EVEN IF ADVISED OF THE POSSIBILITY OF SUCH DAMAGE.")
 (set_ol_LicenseIdentifier ("LicenseRef-2")
 zero_OtherLicense)); (set_ol_ExtractedText ("/*
 * (c) Copyright 2009 University of Bristol
 * All rights reserved.
 *
 * Redistribution and use in source and binary forms, with or without
 * modification, are permitted provided that the following conditions
 * are met:
 * 1. Redistributions of source code must retain the above copyright
 *    notice, this list of conditions and the following disclaimer.
 * 2. Redistributions in binary form must reproduce the above copyright
 *    notice, this list of conditions and the following disclaimer in the
 *    documentation and/or other materials provided with the distribution.
 * 3. The name of the author may not be used to endorse or promote products
 *    derived from this software without specific prior written permission.
 *
 * THIS SOFTWARE IS PROVIDED BY THE AUTHOR ``AS IS'' AND ANY EXPRESS OR
 * IMPLIED WARRANTIES, INCLUDING, BUT NOT LIMITED TO, THE IMPLIED WARRANTIES
 * OF MERCHANTABILITY AND FITNESS FOR A PARTICULAR PURPOSE ARE DISCLAIMED.
 * IN NO EVENT SHALL THE AUTHOR BE LIABLE FOR ANY DIRECT, INDIRECT,
 * INCIDENTAL, SPECIAL, EXEMPLARY, OR CONSEQUENTIAL DAMAGES (INCLUDING, BUT
 * NOT LIMITED TO, PROCUREMENT OF SUBSTITUTE GOODS OR SERVICES; LOSS OF USE,
 * DATA, OR PROFITS; OR BUSINESS INTERRUPTION) HOWEVER CAUSED AND ON ANY
 * THEORY OF LIABILITY, WHETHER IN CONTRACT, STRICT LIABILITY, OR TORT
 * (INCLUDING NEGLIGENCE OR OTHERWISE) ARISING IN ANY WAY OUT OF THE USE OF
 * THIS SOFTWARE, EVEN IF ADVISED OF THE POSSIBILITY OF SUCH DAMAGE.
*/")
 (set_ol_LicenseIdentifier ("LicenseRef-4")
 zero_OtherLicense)); (set_ol_CrossReferences [("http://people.freebsd.org/~phk/")]
 (set_ol_LicenseName ("Beer-Ware License (Version 42)")
 (set_ol_Comment ("The beerware license has a couple of other standard variants.")
 (set_ol_ExtractedText ("""THE BEER-WARE LICENSE"" (Revision 42):
phk@FreeBSD.ORG wrote this file. As long as you retain this notice you
can do whatever you want with this stuff. If we meet some day, and you think this stuff is worth it, you can buy me a beer in return Poul-Henning Kamp")
 (set_ol_LicenseIdentifier ("LicenseRef-Beerware-4.2")
 zero_OtherLicense))))); (set_ol_Comment ("This is tye CyperNeko License")
 (set_ol_CrossReferences [("http://people.apache.org/~andyc/neko/LICENSE"); ("http://justasample.url.com")]
 (set_ol_LicenseName ("CyberNeko License")
 (set_ol_ExtractedText ("The CyberNeko Software License, Version 1.0

 
(C) Copyright 2002-2005, Andy Clark.  All rights reserved.
 
Redistribution and use in source and binary forms, with or without
modification, are permitted provided that the following conditions
are met:

1. Redistributions of source code must retain the above copyright
   notice, this list of conditions and the following disclaimer. 

2. Redistributions in binary form must reproduce the above copyright
   notice, this list of conditions and the following disclaimer in
   the documentation and/or other materials provided with the
   distribution.

3. The end-user documentation included with the redistribution,
   if any, must include the following acknowledgment:  
     ""This product includes software developed by Andy Clark.""
   Alternately, this acknowledgment may appear in the software itself,
   if and wherever such third-party acknowledgments normally appear.

4. The names ""CyberNeko"" and ""NekoHTML"" must not be used to endorse
   or promote products derived from this software without prior 
   written permission. For written permission, please contact 
   andyc@cyberneko.net.

5. Products derived from this software may not be called ""CyberNeko"",
   nor may ""CyberNeko"" appear in their name, without prior written
   permission of the author.

THIS SOFTWARE IS PROVIDED ``AS IS'' AND ANY EXPRESSED OR IMPLIED
WARRANTIES, INCLUDING, BUT NOT LIMITED TO, THE IMPLIED WARRANTIES
OF MERCHANTABILITY AND FITNESS FOR A PARTICULAR PURPOSE ARE
DISCLAIMED.  IN NO EVENT SHALL THE AUTHOR OR OTHER CONTRIBUTORS
BE LIABLE FOR ANY DIRECT, INDIRECT, INCIDENTAL, SPECIAL, EXEMPLARY, 
OR CONSEQUENTIAL DAMAGES (INCLUDING, BUT NOT LIMITED TO, PROCUREMENT 
OF SUBSTITUTE GOODS OR SERVICES; LOSS OF USE, DATA, OR PROFITS; OR 
BUSINESS INTERRUPTION) HOWEVER CAUSED AND ON ANY THEORY OF LIABILITY, 
WHETHER IN CONTRACT, STRICT LIABILITY, OR TORT (INCLUDING NEGLIGENCE 
OR OTHERWISE) ARISING IN ANY WAY OUT OF THE USE OF THIS SOFTWARE, 
EVEN IF ADVISED OF THE POSSIBILITY OF SUCH DAMAGE.")
 (set_ol_LicenseIdentifier ("LicenseRef-3")
 zero_OtherLicense)))))]
 (set_d_ExternalDocumentReferences [(set_edr_Checksum (set_ck_Value ("d6a770ba38583ed4bb4525bd96e50461655d2759")
 (set_ck_Algorithm ("SHA1")
 zero_Checksum))
 (set_edr_URI ("http://spdx.org/spdxdocs/spdx-tools-v1.2-3F2504E0-4F89-41D3-9A0C-0305E82C3301")
 (set_edr_DocumentRefID ("spdx-tool-1.2")
 zero_ExternalDocumentRef)))]
 (set_d_DocumentComment ("This document was created using SPDX 2.0 using licenses from the web site.")
 (set_d_CreationInfo (Some (set_ci_CreatorComment ("This package has been shipped in source and binary form.
The binaries were created with gcc 4.5.1 and expect to link to
compatible system run time libraries.")
 (set_ci_Created ("2010-01-29T18:30:22Z")
 (set_ci_Creators [(set_cr_Creator ("LicenseFind-1.0")
 (set_cr_CreatorType ("Tool")
 zero_Creator)); (set_cr_Creator ("ExampleCodeInspect ()")
 (set_cr_CreatorType ("Organization")
 zero_Creator)); (set_cr_Creator ("Jane Doe ()")
 (set_cr_CreatorType ("Person")
 zero_Creator))]
 (set_ci_LicenseListVersion ("3.9")
 zero_CreationInfo)))))
 (set_d_DocumentNamespace ("http://spdx.org/spdxdocs/spdx-example-444504E0-4F89-41D3-9A0C-0305E82C3301")
 (set_d_DocumentName ("SPDX-Tools-v2.0")
 (set_d_SPDXIdentifier ("DOCUMENT")
 (set_d_SPDXVersion ("SPDX-2.2")
 (set_d_DataLicense ("CC0-1.0")
 zero_DocumentOf)))))))))))))).
(** /repo/spdx/v2/v2_3/example/example.go 25-442 *)
Definition example_23 : Document :=
(set_d_Relationships [(set_r_Comment ("A relationship comment")
 (set_r_Relationship ("CONTAINS")
 (set_r_RefB (MkDEID "" "Package" "")
 (set_r_RefA (MkDEID "" "DOCUMENT" "")
 zero_Relationship)))); (set_r_Relationship ("COPY_OF")
 (set_r_RefB (MkDEID "spdx-tool-1.2" "ToolsElement" "")
 (set_r_RefA (MkDEID "" "DOCUMENT" "")
 zero_Relationship))); (set_r_Relationship ("DESCRIBES")
 (set_r_RefB (MkDEID "" "File" "")
 (set_r_RefA (MkDEID "" "DOCUMENT" "")
 zero_Relationship))); (set_r_Relationship ("DESCRIBES")
 (set_r_RefB (MkDEID "" "Package" "")
 (set_r_RefA (MkDEID "" "DOCUMENT" "")
 zero_Relationship))); (set_r_Relationship ("CONTAINS")
 (set_r_RefB (MkDEID "" "JenaLib" "")
 (set_r_RefA (MkDEID "" "Package" "")
 zero_Relationship))); (set_r_Relationship ("DYNAMIC_LINK")
 (set_r_RefB (MkDEID "" "Saxon" "")
 (set_r_RefA (MkDEID "" "Package" "")
 zero_Relationship))); (set_r_Relationship ("GENERATED_FROM")
 (set_r_RefB (MkDEID "" "" "NOASSERTION")
 (set_r_RefA (MkDEID "" "CommonsLangSrc" "")
 zero_Relationship))); (set_r_Relationship ("CONTAINS")
 (set_r_RefB (MkDEID "" "Package" "")
 (set_r_RefA (MkDEID "" "JenaLib" "")
 zero_Relationship))); (set_r_Relationship ("GENERATED_FROM")
 (set_r_RefB (MkDEID "" "fromDoap-0" "")
 (set_r_RefA (MkDEID "" "File" "")
 zero_Relationship)))]
 (set_d_Snippets [(set_s_Name ("from linux kernel")
 (set_s_Comment ("This snippet was identified as significant and highlighted in this Apache-2.0 file, when a commercial scanner identified it as being derived from file foo.c in package xyz which is licensed under GPL-2.0.")
 (set_s_CopyrightText ("Copyright 2008-2010 John Smith")
 (set_s_LicenseComments ("The concluded license was taken from package xyz, from which the snippet was copied into the current file. The concluded license information was found in the COPYING.txt file in package xyz.")
 (set_s_LicenseInfoInSnippet [("GPL-2.0-only")]
 (set_s_LicenseConcluded ("GPL-2.0-only")
 (set_s_Ranges [(set_sr_EndPointer (set_rp_FileSPDXIdentifier ("DoapSource")
 (set_rp_Offset (420)%Z
 zero_RangePointer))
 (set_sr_StartPointer (set_rp_FileSPDXIdentifier ("DoapSource")
 (set_rp_Offset (310)%Z
 zero_RangePointer))
 zero_SnippetRange)); (set_sr_EndPointer (set_rp_FileSPDXIdentifier ("DoapSource")
 (set_rp_LineNumber (23)%Z
 zero_RangePointer))
 (set_sr_StartPointer (set_rp_FileSPDXIdentifier ("DoapSource")
 (set_rp_LineNumber (5)%Z
 zero_RangePointer))
 zero_SnippetRange))]
 (set_s_FromFile ("DoapSource")
 (set_s_SPDXIdentifier ("Snippet")
 zero_Snippet)))))))))]
 (set_d_Files [(set_f_Contributors [("Protecode Inc."); ("SPDX Technical Team Members"); ("Open Logic Inc."); ("Source Auditor Inc."); ("Black Duck Software In.c")]
 (set_f_CopyrightText ("Copyright 2010, 2011 Source Auditor Inc.")
 (set_f_LicenseInfoInFiles [("Apache-2.0")]
 (set_f_LicenseConcluded ("Apache-2.0")
 (set_f_Checksums [(set_ck_Value ("2fd4e1c67a2d28fced849ee1bb76e7391b93eb12")
 (set_ck_Algorithm ("SHA1")
 zero_Checksum))]
 (set_f_FileTypes [("SOURCE")]
 (set_f_SPDXIdentifier ("DoapSource")
 (set_f_FileName ("./src/org/spdx/parser/DOAPProject.java")
 zero_FileOf)))))))); (set_f_Notice ("Apache Commons Lang
Copyright 2001-2011 The Apache Software Foundation

This product includes software developed by
The Apache Software Foundation (http://www.apache.org/).

This product includes software from the Spring Framework,
under the Apache License 2.0 (see: StringUtils.containsWhitespace())")
 (set_f_LicenseInfoInFiles [("Apache-2.0")]
 (set_f_LicenseConcluded ("Apache-2.0")
 (set_f_FileTypes [("ARCHIVE")]
 (set_f_FileName ("./lib-source/commons-lang3-3.1-sources.jar")
 (set_f_Contributors [("Apache Software Foundation")]
 (set_f_CopyrightText ("Copyright 2001-2011 The Apache Software Foundation")
 (set_f_Comment ("This file is used by Jena")
 (set_f_Checksums [(set_ck_Value ("c2b4e1c67a2d28fced849ee1bb76e7391b93f125")
 (set_ck_Algorithm ("SHA1")
 zero_Checksum))]
 (set_f_SPDXIdentifier ("CommonsLangSrc")
 zero_FileOf)))))))))); (set_f_LicenseInfoInFiles [("LicenseRef-1")]
 (set_f_LicenseConcluded ("LicenseRef-1")
 (set_f_LicenseComments ("This license is used by Jena")
 (set_f_FileTypes [("ARCHIVE")]
 (set_f_FileName ("./lib-source/jena-2.6.3-sources.jar")
 (set_f_Contributors [("Apache Software Foundation"); ("Hewlett Packard Inc.")]
 (set_f_CopyrightText ("(c) Copyright 2000, 2001, 2002, 2003, 2004, 2005, 2006, 2007, 2008, 2009 Hewlett-Packard Development Company, LP")
 (set_f_Comment ("This file belongs to Jena")
 (set_f_Checksums [(set_ck_Value ("3ab4e1c67a2d28fced849ee1bb76e7391b93f125")
 (set_ck_Algorithm ("SHA1")
 zero_Checksum))]
 (set_f_SPDXIdentifier ("JenaLib")
 zero_FileOf)))))))))); (set_f_Notice ("Copyright (c) 2001 Aaron Lehmann aaroni@vitelus.com

Permission is hereby granted, free of charge, to any person obtaining a copy of this software and associated documentation files (the �Software�), to deal in the Software without restriction, including without limitation the rights to use, copy, modify, merge, publish, distribute, sublicense, and/or sell copies of the Software, and to permit persons to whom the Software is furnished to do so, subject to the following conditions: 
The above copyright notice and this permission notice shall be included in all copies or substantial portions of the Software.

THE SOFTWARE IS PROVIDED �AS IS', WITHOUT WARRANTY OF ANY KIND, EXPRESS OR IMPLIED, INCLUDING BUT NOT LIMITED TO THE WARRANTIES OF MERCHANTABILITY, FITNESS FOR A PARTICULAR PURPOSE AND NONINFRINGEMENT.  IN NO EVENT SHALL THE AUTHORS OR COPYRIGHT HOLDERS BE LIABLE FOR ANY CLAIM, DAMAGES OR OTHER LIABILITY, WHETHER IN AN ACTION OF CONTRACT, TORT OR OTHERWISE, ARISING FROM, OUT OF OR IN CONNECTION WITH THE SOFTWARE OR THE USE OR OTHER DEALINGS IN THE SOFTWARE.")
 (set_f_LicenseInfoInFiles [("GPL-2.0-only"); ("LicenseRef-2")]
 (set_f_LicenseConcluded ("(LGPL-2.0-only OR LicenseRef-2)")
 (set_f_LicenseComments ("The concluded license was taken from the package level that the file was included in.")
 (set_f_FileTypes [("SOURCE")]
 (set_f_FileName ("./package/foo.c")
 (set_f_Contributors [("The Regents of the University of California"); ("Modified by Paul Mundt lethal@linux-sh.org"); ("IBM Corporation")]
 (set_f_CopyrightText ("Copyright 2008-2010 John Smith")
 (set_f_Comment ("The concluded license was taken from the package level that the file was included in.
This information was found in the COPYING.txt file in the xyz directory.")
 (set_f_Checksums [(set_ck_Value ("d6a770ba38583ed4bb4525bd96e50461655d2758")
 (set_ck_Algorithm ("SHA1")
 zero_Checksum)); (set_ck_Value ("624c1abb3664f4b35547e7c73864ad24")
 (set_ck_Algorithm ("MD5")
 zero_Checksum))]
 (set_f_Annotations [(set_a_Comment ("File level annotation")
 (set_a_Type ("OTHER")
 (set_a_Date ("2011-01-29T18:30:22Z")
 (set_a_Annotator (set_an_AnnotatorType ("Person")
 (set_an_Annotator ("File Commenter")
 zero_Annotator))
 zero_Annotation))))]
 (set_f_SPDXIdentifier ("File")
 zero_FileOf))))))))))))]
 (set_d_Packages [(set_p_Annotations [(set_a_Comment ("Package level annotation")
 (set_a_Type ("OTHER")
 (set_a_Date ("2011-01-29T18:30:22Z")
 (set_a_Annotator (set_an_AnnotatorType ("Person")
 (set_an_Annotator ("Package Commenter")
 zero_Annotator))
 zero_Annotation))))]
 (set_p_Files []
 (set_p_AttributionTexts [("The GNU C Library is free software.  See the file COPYING.LIB for copying conditions, and LICENSES for notices about a few contributions that require these additional notices to be distributed.  License copyright years may be listed using range notation, e.g., 1996-2015, indicating that every year in the range, inclusive, is a copyrightable year that would otherwise be listed individually.")]
 (set_p_ExternalReferences [(set_er_Locator ("cpe:2.3:a:pivotal_software:spring_framework:4.1.0:*:*:*:*:*:*:*")
 (set_er_RefType ("cpe23Type")
 (set_er_Category ("SECURITY")
 zero_ExternalRef))); (set_er_Comment ("This is the external ref for Acme")
 (set_er_Locator ("acmecorp/acmenator/4.1.3-alpha")
 (set_er_RefType ("http://spdx.org/spdxdocs/spdx-example-444504E0-4F89-41D3-9A0C-0305E82C3301#LocationRef-acmeforge")
 (set_er_Category ("OTHER")
 zero_ExternalRef))))]
 (set_p_Comment ("")
 (set_p_Description ("The GNU C Library defines functions that are specified by the ISO C standard, as well as additional features specific to POSIX and other derivatives of the Unix operating system, and extensions specific to GNU systems.")
 (set_p_Summary ("GNU C library.")
 (set_p_CopyrightText ("Copyright 2008-2010 John Smith")
 (set_p_LicenseComments ("The license for this project changed with the release of version x.y.  The version of the project included here post-dates the license change.")
 (set_p_LicenseDeclared ("(LGPL-2.0-only AND LicenseRef-3)")
 (set_p_LicenseInfoFromFiles [("GPL-2.0-only"); ("LicenseRef-2"); ("LicenseRef-1")]
 (set_p_LicenseConcluded ("(LGPL-2.0-only OR LicenseRef-3)")
 (set_p_SourceInfo ("uses glibc-2_11-branch from git://sourceware.org/git/glibc.git.")
 (set_p_HomePage ("http://ftp.gnu.org/gnu/glibc")
 (set_p_Checksums [(set_ck_Value ("624c1abb3664f4b35547e7c73864ad24")
 (set_ck_Algorithm ("MD5")
 zero_Checksum)); (set_ck_Value ("85ed0817af83a24ad8da68c2b5094de69833983c")
 (set_ck_Algorithm ("SHA1")
 zero_Checksum)); (set_ck_Value ("11b6d3ee554eedf79299905a98f9b9a04e498210b59f15094c916c91d150efcd")
 (set_ck_Algorithm ("SHA256")
 zero_Checksum))]
 (set_p_VerificationCode (Some (set_vc_ExcludedFiles [("./package.spdx")]
 (set_vc_Value ("d6a770ba38583ed4bb4525bd96e50461655d2758")
 zero_VerificationCode)))
 (set_p_IsFilesAnalyzedTagPresent true
 (set_p_FilesAnalyzed true
 (set_p_DownloadLocation ("http://ftp.gnu.org/gnu/glibc/glibc-ports-2.15.tar.gz")
 (set_p_Originator (Some (set_or_OriginatorType ("Organization")
 (set_or_Originator ("ExampleCodeInspect (contact@example.com)")
 zero_Originator)))
 (set_p_Supplier (Some (set_su_SupplierType ("Person")
 (set_su_Supplier ("Jane Doe (jane.doe@example.com)")
 zero_Supplier)))
 (set_p_FileName ("glibc-2.11.1.tar.gz")
 (set_p_Version ("2.11.1")
 (set_p_SPDXIdentifier ("Package")
 (set_p_PackageName ("glibc")
 zero_PackageOf))))))))))))))))))))))))); (set_p_PackageName ("Apache Commons Lang")
 (set_p_LicenseDeclared ("NOASSERTION")
 (set_p_LicenseConcluded ("NOASSERTION")
 (set_p_HomePage ("http://commons.apache.org/proper/commons-lang/")
 (set_p_IsFilesAnalyzedTagPresent true
 (set_p_FilesAnalyzed false
 (set_p_DownloadLocation ("NOASSERTION")
 (set_p_CopyrightText ("NOASSERTION")
 (set_p_SPDXIdentifier ("fromDoap-1")
 zero_PackageOf))))))))); (set_p_Version ("3.12.0")
 (set_p_LicenseDeclared ("NOASSERTION")
 (set_p_LicenseConcluded ("NOASSERTION")
 (set_p_HomePage ("http://www.openjena.org/")
 (set_p_IsFilesAnalyzedTagPresent false
 (set_p_FilesAnalyzed true
 (set_p_ExternalReferences [(set_er_Locator ("pkg:maven/org.apache.jena/apache-jena@3.12.0")
 (set_er_RefType ("purl")
 (set_er_Category ("PACKAGE-MANAGER")
 zero_ExternalRef)))]
 (set_p_DownloadLocation ("https://search.maven.org/remotecontent?filepath=org/apache/jena/apache-jena/3.12.0/apache-jena-3.12.0.tar.gz")
 (set_p_CopyrightText ("NOASSERTION")
 (set_p_SPDXIdentifier ("fromDoap-0")
 (set_p_PackageName ("Jena")
 zero_PackageOf))))))))))); (set_p_Version ("8.8")
 (set_p_FileName ("saxonB-8.8.zip")
 (set_p_PackageName ("Saxon")
 (set_p_LicenseDeclared ("MPL-1.0")
 (set_p_LicenseConcluded ("MPL-1.0")
 (set_p_LicenseComments ("Other versions available for a commercial license")
 (set_p_HomePage ("http://saxon.sourceforge.net/")
 (set_p_IsFilesAnalyzedTagPresent true
 (set_p_FilesAnalyzed false
 (set_p_DownloadLocation ("https://sourceforge.net/projects/saxon/files/Saxon-B/8.8.0.7/saxonb8-8-0-7j.zip/download")
 (set_p_Description ("The Saxon package is a collection of tools for processing XML documents.")
 (set_p_CopyrightText ("Copyright Saxonica Ltd")
 (set_p_Checksums [(set_ck_Value ("85ed0817af83a24ad8da68c2b5094de69833983c")
 (set_ck_Algorithm ("SHA1")
 zero_Checksum))]
 (set_p_SPDXIdentifier ("Saxon")
 zero_PackageOf)))))))))))))); (set_p_ReleaseDate ("2021-10-15T02:38:00Z")
 (set_p_ValidUntilDate ("2022-10-15T02:38:00Z")
 (set_p_BuiltDate ("2021-09-15T02:38:00Z")
 (set_p_Version ("centos7.9.2009")
 (set_p_FileName ("saxonB-8.8.zip")
 (set_p_PackageName ("centos")
 (set_p_HomePage ("https://www.centos.org/")
 (set_p_FilesAnalyzed true
 (set_p_DownloadLocation ("NOASSERTION")
 (set_p_Description ("The CentOS container used to run the application.")
 (set_p_CopyrightText ("NOASSERTION")
 (set_p_SPDXIdentifier ("CentOS-7")
 (set_p_PrimaryPackagePurpose ("CONTAINER")
 zero_PackageOf)))))))))))))]
 (set_d_Annotations [(set_a_Comment ("Document level annotation")
 (set_a_Type ("OTHER")
 (set_a_Date ("2010-01-29T18:30:22Z")
 (set_a_Annotator (set_an_AnnotatorType ("Person")
 (set_an_Annotator ("Jane Doe ()")
 zero_Annotator))
 zero_Annotation)))); (set_a_Comment ("This is just an example.  Some of the non-standard licenses look like they are actually BSD 3 clause licenses")
 (set_a_Type ("REVIEW")
 (set_a_Date ("2010-02-10T00:00:00Z")
 (set_a_Annotator (set_an_AnnotatorType ("Person")
 (set_an_Annotator ("Joe Reviewer")
 zero_Annotator))
 zero_Annotation)))); (set_a_Comment ("Another example reviewer.")
 (set_a_Type ("REVIEW")
 (set_a_Date ("2011-03-13T00:00:00Z")
 (set_a_Annotator (set_an_AnnotatorType ("Person")
 (set_an_Annotator ("Suzanne Reviewer")
 zero_Annotator))
 zero_Annotation))))]
 (set_d_OtherLicenses [(set_ol_ExtractedText ("/*
 * (c) Copyright 2000, 2001, 2002, 2003, 2004, 2005, 2006, 2007, 2008, 2009 Hewlett-Packard Development Company, LP
 * All rights reserved.
 *
 * Redistribution and use in source and binary forms, with or without
 * modification, are permitted provided that the following conditions
 * are met:
 * 1. Redistributions of source code must retain the above copyright
 *    notice, this list of conditions and the following disclaimer.
 * 2. Redistributions in binary form must reproduce the above copyright
 *    notice, this list of conditions and the following disclaimer in the
 *    documentation and/or other materials provided with the distribution.
 * 3. The name of the author may not be used to endorse or promote products
 *    derived from this software without specific prior written permission.
 *
 * THIS SOFTWARE IS PROVIDED BY THE AUTHOR ``AS IS'' AND ANY EXPRESS OR
 * IMPLIED WARRANTIES, INCLUDING, BUT NOT LIMITED TO, THE IMPLIED WARRANTIES
 * OF MERCHANTABILITY AND FITNESS FOR A PARTICULAR PURPOSE ARE DISCLAIMED.
 * IN NO EVENT SHALL THE AUTHOR BE LIABLE FOR ANY DIRECT, INDIRECT,
 * INCIDENTAL, SPECIAL, EXEMPLARY, OR CONSEQUENTIAL DAMAGES (INCLUDING, BUT
 * NOT LIMITED TO, PROCUREMENT OF SUBSTITUTE GOODS OR SERVICES; LOSS OF USE,
 * DATA, OR PROFITS; OR BUSINESS INTERRUPTION) HOWEVER CAUSED AND ON ANY
 * THEORY OF LIABILITY, WHETHER IN CONTRACT, STRICT LIABILITY, OR TORT
 * (INCLUDING NEGLIGENCE OR OTHERWISE) ARISING IN ANY WAY OUT OF THE USE OF
 * THIS SOFTWARE, EVEN IF ADVISED OF THE POSSIBILITY OF SUCH DAMAGE.
*/")
 (set_ol_LicenseIdentifier ("LicenseRef-1")
 zero_OtherLicense)); (set_ol_ExtractedText ("This package includes the GRDDL parser developed by Hewlett Packard under the following license:
� Copyright 2007 Hewlett-Packard Development Company, LP

Redistribution and use in source and binary forms, with or without modification, are permitted provided that the following conditions are met: 

Redistributions of source code must retain the above copyright notice, this list of conditions and the following disclaimer. 
Redistributions in binary form must reproduce the above copyright notice, this list of conditions and the following disclaimer in the documentation and/or other materials provided with the distribution. 
The name of the author may not be used to endorse or promote products derived from this software without specific prior written permission. 
THIS SOFTWARE IS PROVIDED BY THE AUTHOR ``AS IS'' AND ANY EXPRESS OR IMPLIED WARRANTIES, INCLUDING, BUT NOT LIMITED TO, THE IMPLIED WARRANTIES OF MERCHANTABILITY AND FITNESS FOR A PARTICULAR PURPOSE ARE DISCLAIMED. IN NO EVENT SHALL THE AUTHOR BE LIABLE FOR ANY DIRECT, INDIRECT, INCIDENTAL, SPECIAL, EXEMPLARY, OR CONSEQUENTIAL DAMAGES (INCLUDING, BUT NOT LIMITED TO, PROCUREMENT OF SUBSTITUTE GOODS OR SERVICES; LOSS OF USE, DATA, OR PROFITS; OR BUSINESS INTERRUPTION) HOWEVER CAUSED AND ON ANY THEORY OF LIABILITY, WHETHER IN CONTRACT, STRICT LIABILITY, OR TORT (INCLUDING NEGLIGENCE OR OTHERWISE) ARISING IN ANY WAY OUT OF THE USE OF THIS SOFTWARE, EVEN IF ADVISED OF THE POSSIBILITY OF SUCH DAMAGE.")
 (set_ol_LicenseIdentifier ("LicenseRef-2")
 zero_OtherLicense)); (set_ol_ExtractedText ("/*
 * (c) Copyright 2009 University of Bristol
 * All rights reserved.
 *
 * Redistribution and use in source and binary forms, with or without
 * modification, are permitted provided that the following conditions
 * are met:
 * 1. Redistributions of source code must retain the above copyright
 *    notice, this list of conditions and the following disclaimer.
 * 2. Redistributions in binary form must reproduce the above copyright
 *    notice, this list of conditions and the following disclaimer in the
 *    documentation and/or other materials provided with the distribution.
 * 3. The name of the author may not be used to endorse or promote products
 *    derived from this software without specific prior written permission.
 *
 * THIS SOFTWARE IS PROVIDED BY THE AUTHOR ``AS IS'' AND ANY EXPRESS OR
 * IMPLIED WARRANTIES, INCLUDING, BUT NOT LIMITED TO, THE IMPLIED WARRANTIES
 * OF MERCHANTABILITY AND FITNESS FOR A PARTICULAR PURPOSE ARE DISCLAIMED.
 * IN NO EVENT SHALL THE AUTHOR BE LIABLE FOR ANY DIRECT, INDIRECT,
 * INCIDENTAL, SPECIAL, EXEMPLARY, OR CONSEQUENTIAL DAMAGES (INCLUDING, BUT
 * NOT LIMITED TO, PROCUREMENT OF SUBSTITUTE GOODS OR SERVICES; LOSS OF USE,
 * DATA, OR PROFITS; OR BUSINESS INTERRUPTION) HOWEVER CAUSED AND ON ANY
 * THEORY OF LIABILITY, WHETHER IN CONTRACT, STRICT LIABILITY, OR TORT
 * (INCLUDING NEGLIGENCE OR OTHERWISE) ARISING IN ANY WAY OUT OF THE USE OF
 * THIS SOFTWARE, EVEN IF ADVISED OF THE POSSIBILITY OF SUCH DAMAGE.
*/")
 (set_ol_LicenseIdentifier ("LicenseRef-4")
 zero_OtherLicense)); (set_ol_CrossReferences [("http://people.freebsd.org/~phk/")]
 (set_ol_LicenseName ("Beer-Ware License (Version 42)")
 (set_ol_Comment ("The beerware license has a couple of other standard variants.")
 (set_ol_ExtractedText ("""THE BEER-WARE LICENSE"" (Revision 42):
phk@FreeBSD.ORG wrote this file. As long as you retain this notice you
can do whatever you want with this stuff. If we meet some day, and you think this stuff is worth it, you can buy me a beer in return Poul-Henning Kamp")
 (set_ol_LicenseIdentifier ("LicenseRef-Beerware-4.2")
 zero_OtherLicense))))); (set_ol_Comment ("This is tye CyperNeko License")
 (set_ol_CrossReferences [("http://people.apache.org/~andyc/neko/LICENSE"); ("http://justasample.url.com")]
 (set_ol_LicenseName ("CyberNeko License")
 (set_ol_ExtractedText ("The CyberNeko Software License, Version 1.0

 
(C) Copyright 2002-2005, Andy Clark.  All rights reserved.
 
Redistribution and use in source and binary forms, with or without
modification, are permitted provided that the following conditions
are met:

1. Redistributions of source code must retain the above copyright
   notice, this list of conditions and the following disclaimer. 

2. Redistributions in binary form must reproduce the above copyright
   notice, this list of conditions and the following disclaimer in
   the documentation and/or other materials provided with the
   distribution.

3. The end-user documentation included with the redistribution,
   if any, must include the following acknowledgment:  
     ""This product includes software developed by Andy Clark.""
   Alternately, this acknowledgment may appear in the software itself,
   if and wherever such third-party acknowledgments normally appear.

4. The names ""CyberNeko"" and ""NekoHTML"" must not be used to endorse
   or promote products derived from this software without prior 
   written permission. For written permission, please contact 
   andyc@cyberneko.net.

5. Products derived from this software may not be called ""CyberNeko"",
   nor may ""CyberNeko"" appear in their name, without prior written
   permission of the author.

THIS SOFTWARE IS PROVIDED ``AS IS'' AND ANY EXPRESSED OR IMPLIED
WARRANTIES, INCLUDING, BUT NOT LIMITED TO, THE IMPLIED WARRANTIES
OF MERCHANTABILITY AND FITNESS FOR A PARTICULAR PURPOSE ARE
DISCLAIMED.  IN NO EVENT SHALL THE AUTHOR OR OTHER CONTRIBUTORS
BE LIABLE FOR ANY DIRECT, INDIRECT, INCIDENTAL, SPECIAL, EXEMPLARY, 
OR CONSEQUENTIAL DAMAGES (INCLUDING, BUT NOT LIMITED TO, PROCUREMENT 
OF SUBSTITUTE GOODS OR SERVICES; LOSS OF USE, DATA, OR PROFITS; OR 
BUSINESS INTERRUPTION) HOWEVER CAUSED AND ON ANY THEORY OF LIABILITY, 
WHETHER IN CONTRACT, STRICT LIABILITY, OR TORT (INCLUDING NEGLIGENCE 
OR OTHERWISE) ARISING IN ANY WAY OUT OF THE USE OF THIS SOFTWARE, 
EVEN IF ADVISED OF THE POSSIBILITY OF SUCH DAMAGE.")
 (set_ol_LicenseIdentifier ("LicenseRef-3")
 zero_OtherLicense)))))]
 (set_d_ExternalDocumentReferences [(set_edr_Checksum (set_ck_Value ("d6a770ba38583ed4bb4525bd96e50461655d2759")
 (set_ck_Algorithm ("SHA1")
 zero_Checksum))
 (set_edr_URI ("http://spdx.org/spdxdocs/spdx-tools-v1.2-3F2504E0-4F89-41D3-9A0C-0305E82C3301")
 (set_edr_DocumentRefID ("spdx-tool-1.2")
 zero_ExternalDocumentRef)))]
 (set_d_DocumentComment ("This document was created using SPDX 2.0 using licenses from the web site.")
 (set_d_CreationInfo (Some (set_ci_CreatorComment ("This package has been shipped in source and binary form.
The binaries were created with gcc 4.5.1 and expect to link to
compatible system run time libraries.")
 (set_ci_Created ("2010-01-29T18:30:22Z")
 (set_ci_Creators [(set_cr_Creator ("LicenseFind-1.0")
 (set_cr_CreatorType ("Tool")
 zero_Creator)); (set_cr_Creator ("ExampleCodeInspect ()")
 (set_cr_CreatorType ("Organization")
 zero_Creator)); (set_cr_Creator ("Jane Doe ()")
 (set_cr_CreatorType ("Person")
 zero_Creator))]
 (set_ci_LicenseListVersion ("3.9")
 zero_CreationInfo)))))
 (set_d_DocumentNamespace ("http://spdx.org/spdxdocs/spdx-example-444504E0-4F89-41D3-9A0C-0305E82C3301")
 (set_d_DocumentName ("SPDX-Tools-v2.0")
 (set_d_SPDXIdentifier ("DOCUMENT")
 (set_d_SPDXVersion ("SPDX-2.3")
 (set_d_DataLicense ("CC0-1.0")
 zero_DocumentOf)))))))))))))).
