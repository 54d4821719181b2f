(** * The tests of the tools (generated by tools/gen_tool_tests.py).

    The directories of /repo/testdata as trees, and the tests of utils, builder,
    idsearcher, spdxlib, licensediff, convert and spdx/v2/common.  The hash
    functions are tables of what SHA1, SHA256 and MD5 give for the contents that occur,
    computed by the generator; the values expected are those in the tests.  The
    examples check that the model does what the tests of the code say the code does;
    they are not among the claims. *)
From Verif Require Import GoStr Sorting Json Types TvUtil TvState Utils Builder IdSearcher SpdxLib LicenseTools Stream TabWriter Report JsonSpdx JsonText Convert ConvertGo.
Local Open Scope string_scope.

(** /repo/testdata/project1 *)
Definition project1 : node := NDir [("emptyfile.testdata.txt", NFile (Some ("")));
 ("lastfile.testdata.txt", NFile (Some ("// SPDX-License-Identifier: Apache-2.0 OR GPL-2.0-or-later

somebody was kind enough to stick an spdx short-form ID in here
")));
 ("folder1", NDir [("file4.testdata.txt", NFile (Some ("blah blah blah
this file has text in it
")))]);
 ("file1.testdata.txt", NFile (Some ("arbitrary content for testing purposes
")));
 ("symbolic-link", NLink);
 ("file3.testdata.txt", NFile (Some ("This file contains some sort of documentation or whatever
")))].
(** /repo/testdata/project2 *)
Definition project2 : node := NDir [("has-duplicate-ids.txt", NFile (Some ("SPDX-License-Identifier: MIT

hi

SPDX-License-Identifier: MIT

oops we repeated it
")));
 ("has-multiple-ids.txt", NFile (Some ("// SPDX-License-Identifier: (MIT AND BSD-3-Clause) OR ISC

hey look it's a short-form ID

// SPDX-License-Identifier: BSD-2-Clause

well there's another one, I guess it applies to this content?

// SPDX-License-Identifier: EPL-1.0+

and another one, with a + this time
")));
 ("has-id.txt", NFile (Some ("// SPDX-License-Identifier: Apache-2.0 OR GPL-2.0-or-later

somebody was kind enough to stick an spdx short-form ID in here
")));
 ("folder", NDir [("has-trailing-comment-marker.c", NFile (Some ("/* SPDX-License-Identifier: GPL-2.0-or-later */

# include <stdio.h>

int main(int argc, char *argv[]) {
    printf(""Hello world!\n"");
    return 0;
}
")));
 ("has-one-id.py", NFile (Some ("# a comment in the python file
# SPDX-License-Identifier: MIT

if __name__ == ""__main__"":
    print(""Hello world!"")
")))]);
 ("no-id.txt", NFile (Some ("this file doesn't have any short-form IDs
")))].
(** /repo/testdata/project3 *)
Definition project3 : node := NDir [("excludedir", NDir [("no.txt", NFile (Some ("")))]);
 ("keep", NDir [("keep.txt", NFile (Some ("SPDX-License-Identifier: MIT
")))]);
 ("dontscan.txt", NFile (Some ("SPDX-License-Identifier: OOPS
")));
 ("subdir", NDir [("keep", NDir [("dontscan.txt", NFile (Some ("SPDX-License-Identifier: OOPS
")));
 ("keep.txt", NFile (Some ("SPDX-License-Identifier: MIT
")))]);
 ("ignoredir", NDir [("notThisOneEither.txt", NFile (Some ("")))]);
 ("ignorefile.txt", NFile (Some ("")))]);
 ("ignoredir", NDir [("notThisOne.txt", NFile (Some ("")))]);
 ("alsoEXCLUDEthis.txt", NFile (Some ("")));
 ("keep.txt", NFile (Some ("")));
 ("ignorefile.txt", NFile (Some ("")))].
(** /repo/testdata/project4 *)
Definition project4 : node := NDir [("has-id-to-ignore.txt", NFile (Some ("this file actually contains some code talking about IDs, and should be ignored

if file.contains(""SPDX-License-Identifier: GPL-2.0"") {
    // do something...

}

We don't want to pick up that line as the short-form ID for this file.
")));
 ("has-id.txt", NFile (Some ("// SPDX-License-Identifier: Apache-2.0 OR GPL-2.0-or-later

somebody was kind enough to stick an spdx short-form ID in here
")));
 ("has-mix-of-ids.txt", NFile (Some ("// SPDX-License-Identifier: MIT

the short-form ID above is correct, and should be picked up.

the following code is talking about IDs, and should be ignored

if file.contains(""SPDX-License-Identifier: GPL-2.0"") {
    // do something...

}

We don't want to pick up that line as the short-form ID for this file.
")))].
Fixpoint table (l : list (string * string)) (s : string) : string := match l with [] => "" | (k, x) :: l => if String.eqb k s then x else table l s end.
Definition h : hashes := MkHashes
 (table [("", "da39a3ee5e6b4b0d3255bfef95601890afd80709");
 ("# a comment in the python file
# SPDX-License-Identifier: MIT

if __name__ == ""__main__"":
    print(""Hello world!"")
", "dcecdd26eebaea9c7a8263f190fc568210c8d4fd");
 ("/* SPDX-License-Identifier: GPL-2.0-or-later */

# include <stdio.h>

int main(int argc, char *argv[]) {
    printf(""Hello world!\n"");
    return 0;
}
", "a9ef82bbc630212f6aecf99f837b8dd1a67b0744");
 ("// SPDX-License-Identifier: (MIT AND BSD-3-Clause) OR ISC

hey look it's a short-form ID

// SPDX-License-Identifier: BSD-2-Clause

well there's another one, I guess it applies to this content?

// SPDX-License-Identifier: EPL-1.0+

and another one, with a + this time
", "e352d23aa7208ec7e2f35669261b77d2b2051f70");
 ("// SPDX-License-Identifier: Apache-2.0 OR GPL-2.0-or-later

somebody was kind enough to stick an spdx short-form ID in here
", "26d6221d682d9ba59116f9753a701f34271c8ce1");
 ("// SPDX-License-Identifier: MIT

the short-form ID above is correct, and should be picked up.

the following code is talking about IDs, and should be ignored

if file.contains(""SPDX-License-Identifier: GPL-2.0"") {
    // do something...

}

We don't want to pick up that line as the short-form ID for this file.
", "9acca176e5f55260426363c3f2cb9d39ab8c44db");
 ("SPDX-License-Identifier: MIT
", "4755eee3d3735a9c80bd098207187d487c7e9fac");
 ("SPDX-License-Identifier: MIT

hi

SPDX-License-Identifier: MIT

oops we repeated it
", "8a53ead202d74264017291e0f9f54673b0d4dd17");
 ("SPDX-License-Identifier: OOPS
", "c784d749655dbba56098760f31965dc9cae2feba");
 ("This file contains some sort of documentation or whatever
", "a46114b70e163614f01c64adf44cdd438f158fce");
 ("arbitrary content for testing purposes
", "024f870eb6323f532515f7a09d5646a97083b819");
 ("blah blah blah
this file has text in it
", "e623d7d7d782a7c8323c4d436acee4afab34320f");
 ("this file actually contains some code talking about IDs, and should be ignored

if file.contains(""SPDX-License-Identifier: GPL-2.0"") {
    // do something...

}

We don't want to pick up that line as the short-form ID for this file.
", "61585c3a25148f340e0387072a74412d70b17f21");
 ("this file doesn't have any short-form IDs
", "feb0d01805ad59d520491c8062d60cc9a850614f");
 ("2222222222bbbbbbbbbbccccccccccdddddddddd3333333333bbbbbbbbbbccccccccccdddddddddd8888888888bbbbbbbbbbccccccccccddddddddddaaaaaaaaaabbbbbbbbbbccccccccccddddddddddbbbbbbbbbbccccccccccddddddddddaaaaaaaaaa", "ac924b375119c81c1f08c3e2722044bfbbdcd3dc");
 ("2222222222bbbbbbbbbbccccccccccdddddddddd3333333333bbbbbbbbbbccccccccccdddddddddd8888888888bbbbbbbbbbccccccccccddddddddddaaaaaaaaaabbbbbbbbbbccccccccccdddddddddd", "17fab1bd18fe5c13b5d3983f1c17e5f88b8ff266");
 ("024f870eb6323f532515f7a09d5646a97083b81926d6221d682d9ba59116f9753a701f34271c8ce1a46114b70e163614f01c64adf44cdd438f158fceda39a3ee5e6b4b0d3255bfef95601890afd80709e623d7d7d782a7c8323c4d436acee4afab34320f", "fc9ac4a370af0a471c2e52af66d6b4cf4e2ba12b")])
 (table [("", "e3b0c44298fc1c149afbf4c8996fb92427ae41e4649b934ca495991b7852b855");
 ("# a comment in the python file
# SPDX-License-Identifier: MIT

if __name__ == ""__main__"":
    print(""Hello world!"")
", "d293a2e70f58fc75195fe25be631c298c23305e5dd1b599c00a74f800856ed90");
 ("/* SPDX-License-Identifier: GPL-2.0-or-later */

# include <stdio.h>

int main(int argc, char *argv[]) {
    printf(""Hello world!\n"");
    return 0;
}
", "06d10a016e15f43a87dad889897e272f85074494701bf589966f31a572a97c87");
 ("// SPDX-License-Identifier: (MIT AND BSD-3-Clause) OR ISC

hey look it's a short-form ID

// SPDX-License-Identifier: BSD-2-Clause

well there's another one, I guess it applies to this content?

// SPDX-License-Identifier: EPL-1.0+

and another one, with a + this time
", "1b994c5639a10bd00434616976bb31eeeef1dd97a89bab427579c5e6e216f8d5");
 ("// SPDX-License-Identifier: Apache-2.0 OR GPL-2.0-or-later

somebody was kind enough to stick an spdx short-form ID in here
", "0a4bdaf990e9b330ff72022dd78110ae98b60e08337cf2105b89856373416805");
 ("// SPDX-License-Identifier: MIT

the short-form ID above is correct, and should be picked up.

the following code is talking about IDs, and should be ignored

if file.contains(""SPDX-License-Identifier: GPL-2.0"") {
    // do something...

}

We don't want to pick up that line as the short-form ID for this file.
", "3456b7345cf898ac16ff6ddad0fe293d5ca29806f5d71d44fa74f52fbe8d92b2");
 ("SPDX-License-Identifier: MIT
", "f58783d38481ddcedebde2b7909d322fc272c80ce387e1d3679a29e356d6a00b");
 ("SPDX-License-Identifier: MIT

hi

SPDX-License-Identifier: MIT

oops we repeated it
", "cc33878a21b713001f0a021d5150dc555ff487807e323e7dfa8b50f5b284eeee");
 ("SPDX-License-Identifier: OOPS
", "1231cdb48860b26bcde78296267a3a1a6f3a44563759f48b3321902ced39849a");
 ("This file contains some sort of documentation or whatever
", "9fc181b9892720a15df1a1e561860318db40621bd4040ccdf18e110eb01d04b4");
 ("arbitrary content for testing purposes
", "b14e44284ca477b4c0db34b15ca4c454b2947cce7883e22321cf2984050e15bf");
 ("blah blah blah
this file has text in it
", "574fa42c5e0806c0f8906a44884166540206f021527729407cd5326838629c59");
 ("this file actually contains some code talking about IDs, and should be ignored

if file.contains(""SPDX-License-Identifier: GPL-2.0"") {
    // do something...

}

We don't want to pick up that line as the short-form ID for this file.
", "f84731f92c6b6101f4db1ed38d5cc21f13da9beeee3b4afd1d0ee8cc9ff651a4");
 ("this file doesn't have any short-form IDs
", "73eb012c38dbf684dcafed273055209a8878926a99518e48abaf02cc5072c1eb")])
 (table [("", "d41d8cd98f00b204e9800998ecf8427e");
 ("# a comment in the python file
# SPDX-License-Identifier: MIT

if __name__ == ""__main__"":
    print(""Hello world!"")
", "1b6d188c67ec4a866a5210b104824db7");
 ("/* SPDX-License-Identifier: GPL-2.0-or-later */

# include <stdio.h>

int main(int argc, char *argv[]) {
    printf(""Hello world!\n"");
    return 0;
}
", "197d743c71b42926cca4751d82acc240");
 ("// SPDX-License-Identifier: (MIT AND BSD-3-Clause) OR ISC

hey look it's a short-form ID

// SPDX-License-Identifier: BSD-2-Clause

well there's another one, I guess it applies to this content?

// SPDX-License-Identifier: EPL-1.0+

and another one, with a + this time
", "f9414bce67777f537d2dec6ff52566d8");
 ("// SPDX-License-Identifier: Apache-2.0 OR GPL-2.0-or-later

somebody was kind enough to stick an spdx short-form ID in here
", "f60baa793870d9085461ad6bbab50b7f");
 ("// SPDX-License-Identifier: MIT

the short-form ID above is correct, and should be picked up.

the following code is talking about IDs, and should be ignored

if file.contains(""SPDX-License-Identifier: GPL-2.0"") {
    // do something...

}

We don't want to pick up that line as the short-form ID for this file.
", "9fbdd6fe771b8a0d52f369adc3b643c1");
 ("SPDX-License-Identifier: MIT
", "6f77d6d3dfbb7ac36c8429d1c22f4622");
 ("SPDX-License-Identifier: MIT

hi

SPDX-License-Identifier: MIT

oops we repeated it
", "5610a0a2b1f42001acd268145bb55720");
 ("SPDX-License-Identifier: OOPS
", "749ad4d2876222ee0ea86810812526d7");
 ("This file contains some sort of documentation or whatever
", "3e02d3ab9c58eec6911dbba37570934f");
 ("arbitrary content for testing purposes
", "37c8208479dfe42d2bb29debd6e32d4a");
 ("blah blah blah
this file has text in it
", "96e6a25d35df5b1c477710ef4d0c7210");
 ("this file actually contains some code talking about IDs, and should be ignored

if file.contains(""SPDX-License-Identifier: GPL-2.0"") {
    // do something...

}

We don't want to pick up that line as the short-form ID for this file.
", "7dbd00614bd2d88fdcbd4a77ddddacda");
 ("this file doesn't have any short-form IDs
", "bd03a7b7fad55b25d75248c01c9c0b13")]).
(** /repo/utils/filesystem_test.go 12: TestFilesystemCanGetSliceOfFolderContents *)
Example paths_1 : get_all_file_paths insertion_sorter "/repo/testdata/project1" project1 None = Ok ["/emptyfile.testdata.txt"; "/file1.testdata.txt"; "/file3.testdata.txt"; "/folder1/file4.testdata.txt"; "/lastfile.testdata.txt"].
Proof. vm_compute. reflexivity. Qed.
(** /repo/utils/filesystem_test.go 91: TestFilesystemGetAllFilePathsFailsForNonExistentDirectory *)
Example paths_missing : match get_all_file_paths insertion_sorter "/repo/utils/does/not/exist" NBad None with Err _ => true | _ => false end = true.
Proof. vm_compute. reflexivity. Qed.
(** /repo/utils/filesystem_test.go 100: TestFilesystemCanIgnoreFilesWhenGettingFilePaths *)
Example paths_3 : get_all_file_paths insertion_sorter "/repo/testdata/project3" project3 (Some ["**/ignoredir/"; "/excludedir/"; "**/ignorefile.txt"; "/alsoEXCLUDEthis.txt"]) = Ok ["/dontscan.txt"; "/keep/keep.txt"; "/keep.txt"; "/subdir/keep/dontscan.txt"; "/subdir/keep/keep.txt"].
Proof. vm_compute. reflexivity. Qed.
(** /repo/utils/filesystem_test.go 144: TestFilesystemGetsHashesForFilePath *)
Example hashes_1 : get_hashes_for_file_path h project1 "/file1.testdata.txt" = Ok ("024f870eb6323f532515f7a09d5646a97083b819", "b14e44284ca477b4c0db34b15ca4c454b2947cce7883e22321cf2984050e15bf", "37c8208479dfe42d2bb29debd6e32d4a").
Proof. vm_compute. reflexivity. Qed.
(** /repo/utils/filesystem_test.go 162: TestFilesystemGetsErrorWhenRequestingHashesForInvalidFilePath *)
Example hashes_missing : get_hashes_for_file_path h project1 "./does/not/exist" = Err "open".
Proof. vm_compute. reflexivity. Qed.
(** /repo/utils/filesystem_test.go 174: TestFilesystemExcludesForIgnoredPaths *)
Example should_ignore_test : forallb (fun c => Bool.eqb (fst c) (snd c)) [(should_ignore "/file.txt" ["/file.txt"], true);
 (should_ignore "/fileNope.txt" ["/file.txt"], false);
 (should_ignore "/file.txt" ["/file.txt"; "/file2.txt"], true);
 (should_ignore "/fileNope.txt" ["/file.txt"; "/file2.txt"], false);
 (should_ignore "/file2.txt" ["/file.txt"; "/file2.txt"], true);
 (should_ignore "/subdir/file.txt" ["/subdir/file.txt"], true);
 (should_ignore "/file.txt" ["/subdir/file.txt"], false);
 (should_ignore "/something/subdir/file.txt" ["/subdir/file.txt"], false);
 (should_ignore "/subdir/file.txt" ["**/file.txt"], true);
 (should_ignore "/file.txt" ["**/file.txt"], true);
 (should_ignore "/something/subdir/file.txt" ["**/file.txt"], true);
 (should_ignore "/something/fileNope.txt" ["**/file.txt"], false);
 (should_ignore "/subdir/file.txt" ["/subdir/"], true);
 (should_ignore "/file.txt" ["/subdir/"], false);
 (should_ignore "/subdir/sub2/file.txt" ["/subdir/"], true);
 (should_ignore "/nope/subdir/file.txt" ["/subdir/"], false);
 (should_ignore "/subdir/file.txt" ["**/subdir/"], true);
 (should_ignore "/file.txt" ["**/subdir/"], false);
 (should_ignore "/subdir/sub2/file.txt" ["**/subdir/"], true);
 (should_ignore "/nope/subdir/file.txt" ["**/subdir/"], true)] = true.
Proof. vm_compute. reflexivity. Qed.
(** /repo/utils/verification_test.go 13: TestPackageCanGetVerificationCode *)
Example code_1 : (let* c := get_verification_code insertion_sorter (h_sha1 h) [Some (set_f_FileName "file2.txt" (set_f_Checksums [MkChecksum "SHA1" "aaaaaaaaaabbbbbbbbbbccccccccccdddddddddd"] zero_FileOf) : File); Some (set_f_FileName "file1.txt" (set_f_Checksums [MkChecksum "SHA1" "3333333333bbbbbbbbbbccccccccccdddddddddd"] zero_FileOf) : File); Some (set_f_FileName "file3.txt" (set_f_Checksums [MkChecksum "SHA1" "8888888888bbbbbbbbbbccccccccccdddddddddd"] zero_FileOf) : File); Some (set_f_FileName "file5.txt" (set_f_Checksums [MkChecksum "SHA1" "2222222222bbbbbbbbbbccccccccccdddddddddd"] zero_FileOf) : File); Some (set_f_FileName "file4.txt" (set_f_Checksums [MkChecksum "SHA1" "bbbbbbbbbbccccccccccddddddddddaaaaaaaaaa"] zero_FileOf) : File)] "" in Ok (vc_Value c)) = Ok "ac924b375119c81c1f08c3e2722044bfbbdcd3dc".
Proof. vm_compute. reflexivity. Qed.
(** /repo/utils/verification_test.go 79: TestPackageCanGetVerificationCodeIgnoringExcludesFile *)
Example code_2 : (let* c := get_verification_code insertion_sorter (h_sha1 h) [Some (set_f_FileName "file1.txt" (set_f_Checksums [MkChecksum "SHA1" "aaaaaaaaaabbbbbbbbbbccccccccccdddddddddd"] zero_FileOf) : File); Some (set_f_FileName "file2.txt" (set_f_Checksums [MkChecksum "SHA1" "3333333333bbbbbbbbbbccccccccccdddddddddd"] zero_FileOf) : File); Some (set_f_FileName "thisfile.spdx" (set_f_Checksums [MkChecksum "SHA1" "bbbbbbbbbbccccccccccddddddddddaaaaaaaaaa"] zero_FileOf) : File); Some (set_f_FileName "file3.txt" (set_f_Checksums [MkChecksum "SHA1" "8888888888bbbbbbbbbbccccccccccdddddddddd"] zero_FileOf) : File); Some (set_f_FileName "file4.txt" (set_f_Checksums [MkChecksum "SHA1" "2222222222bbbbbbbbbbccccccccccdddddddddd"] zero_FileOf) : File)] "thisfile.spdx" in Ok (vc_Value c)) = Ok "17fab1bd18fe5c13b5d3983f1c17e5f88b8ff266".
Proof. vm_compute. reflexivity. Qed.
(** /repo/utils/verification_test.go 144: TestPackageGetVerificationCodeFailsIfNilFileInSlice *)
Example code_nil : get_verification_code insertion_sorter (h_sha1 h) [Some (set_f_FileName "file2.txt" (set_f_Checksums [MkChecksum "SHA1" "aaaaaaaaaabbbbbbbbbbccccccccccdddddddddd"] zero_FileOf) : File); None; Some (set_f_FileName "file3.txt" (set_f_Checksums [MkChecksum "SHA1" "8888888888bbbbbbbbbbccccccccccdddddddddd"] zero_FileOf) : File)] "" = Err "got nil file for identifier".
Proof. vm_compute. reflexivity. Qed.
Definition cfg (ignored : option (list string)) : BuildConfig := MkBC "https://github.com/swinslow/spdx-docs/spdx-go/testdata-" "Person" "John Doe" ignored "2018-10-19T04:38:00Z".
Definition seen_package (p : Package) := (p_PackageName p, p_SPDXIdentifier p, p_DownloadLocation p, p_FilesAnalyzed p, p_IsFilesAnalyzedTagPresent p, option_map vc_Value (p_VerificationCode p),
  p_LicenseConcluded p, p_LicenseInfoFromFiles p, p_LicenseDeclared p, p_CopyrightText p,
  map (fun f => (f_FileName f, f_SPDXIdentifier f, f_Checksums f, f_LicenseConcluded f, f_LicenseInfoInFiles f, f_CopyrightText f)) (p_Files p)).
(** /repo/builder/build_test.go 13: TestBuildCreatesDocument *)
Example build_1 : (let* d := build insertion_sorter h project1 "/repo/testdata/project1" "project1" (cfg None) in
  Ok (d_SPDXVersion d, d_DataLicense d, d_SPDXIdentifier d, d_DocumentName d, d_DocumentNamespace d, d_CreationInfo d, map seen_package (d_Packages d), d_Relationships d, d_OtherLicenses d, d_Annotations d, d_Reviews d)) =
 Ok ("SPDX-2.3", "CC0-1.0", "DOCUMENT", "project1", "https://github.com/swinslow/spdx-docs/spdx-go/testdata-project1-{fc9ac4a370af0a471c2e52af66d6b4cf4e2ba12b []}",
  Some (MkCI "" [MkCreator "github.com/spdx/tools-golang/builder" "Tool"; MkCreator "John Doe" "Person"] "2018-10-19T04:38:00Z" ""),
  [("project1", "Package-project1", "NOASSERTION", true, true, Some "fc9ac4a370af0a471c2e52af66d6b4cf4e2ba12b", "NOASSERTION", [] : list string, "NOASSERTION", "NOASSERTION",
 [("./emptyfile.testdata.txt", "File0", [MkChecksum "SHA1" "da39a3ee5e6b4b0d3255bfef95601890afd80709"; MkChecksum "SHA256" "e3b0c44298fc1c149afbf4c8996fb92427ae41e4649b934ca495991b7852b855"; MkChecksum "MD5" "d41d8cd98f00b204e9800998ecf8427e"], "NOASSERTION", ["NOASSERTION"], "NOASSERTION");
  ("./file1.testdata.txt", "File1", [MkChecksum "SHA1" "024f870eb6323f532515f7a09d5646a97083b819"; MkChecksum "SHA256" "b14e44284ca477b4c0db34b15ca4c454b2947cce7883e22321cf2984050e15bf"; MkChecksum "MD5" "37c8208479dfe42d2bb29debd6e32d4a"], "NOASSERTION", ["NOASSERTION"], "NOASSERTION");
  ("./file3.testdata.txt", "File2", [MkChecksum "SHA1" "a46114b70e163614f01c64adf44cdd438f158fce"; MkChecksum "SHA256" "9fc181b9892720a15df1a1e561860318db40621bd4040ccdf18e110eb01d04b4"; MkChecksum "MD5" "3e02d3ab9c58eec6911dbba37570934f"], "NOASSERTION", ["NOASSERTION"], "NOASSERTION");
  ("./folder1/file4.testdata.txt", "File3", [MkChecksum "SHA1" "e623d7d7d782a7c8323c4d436acee4afab34320f"; MkChecksum "SHA256" "574fa42c5e0806c0f8906a44884166540206f021527729407cd5326838629c59"; MkChecksum "MD5" "96e6a25d35df5b1c477710ef4d0c7210"], "NOASSERTION", ["NOASSERTION"], "NOASSERTION");
  ("./lastfile.testdata.txt", "File4", [MkChecksum "SHA1" "26d6221d682d9ba59116f9753a701f34271c8ce1"; MkChecksum "SHA256" "0a4bdaf990e9b330ff72022dd78110ae98b60e08337cf2105b89856373416805"; MkChecksum "MD5" "f60baa793870d9085461ad6bbab50b7f"], "NOASSERTION", ["NOASSERTION"], "NOASSERTION")])],
  [MkRln (MkDEID "" "DOCUMENT" "") (MkDEID "" "Package-project1" "") "DESCRIBES" ""], [], [], []).
Proof. vm_compute. reflexivity. Qed.
(** /repo/builder/build_test.go 357: TestBuildCanIgnoreFiles *)
Example build_3 : (let* d := build insertion_sorter h project3 "/repo/testdata/project3" "project1" (cfg (Some ["**/ignoredir/"; "/excludedir/"; "**/ignorefile.txt"; "/alsoEXCLUDEthis.txt"])) in Ok (map (fun p => map f_FileName (p_Files p)) (d_Packages d))) = Ok [["./dontscan.txt"; "./keep/keep.txt"; "./keep.txt"; "./subdir/keep/dontscan.txt"; "./subdir/keep/keep.txt"]].
Proof. vm_compute. reflexivity. Qed.
(** /repo/builder/build_package_test.go 12: TestBuilderCanBuildPackageSection *)
Example build_package_1 : (let* p := build_package_section insertion_sorter h project1 "/repo/testdata/project1" "project1" None in Ok (seen_package p)) = Ok (("project1", "Package-project1", "NOASSERTION", true, true, Some "fc9ac4a370af0a471c2e52af66d6b4cf4e2ba12b", "NOASSERTION", [] : list string, "NOASSERTION", "NOASSERTION",
 [("./emptyfile.testdata.txt", "File0", [MkChecksum "SHA1" "da39a3ee5e6b4b0d3255bfef95601890afd80709"; MkChecksum "SHA256" "e3b0c44298fc1c149afbf4c8996fb92427ae41e4649b934ca495991b7852b855"; MkChecksum "MD5" "d41d8cd98f00b204e9800998ecf8427e"], "NOASSERTION", ["NOASSERTION"], "NOASSERTION");
  ("./file1.testdata.txt", "File1", [MkChecksum "SHA1" "024f870eb6323f532515f7a09d5646a97083b819"; MkChecksum "SHA256" "b14e44284ca477b4c0db34b15ca4c454b2947cce7883e22321cf2984050e15bf"; MkChecksum "MD5" "37c8208479dfe42d2bb29debd6e32d4a"], "NOASSERTION", ["NOASSERTION"], "NOASSERTION");
  ("./file3.testdata.txt", "File2", [MkChecksum "SHA1" "a46114b70e163614f01c64adf44cdd438f158fce"; MkChecksum "SHA256" "9fc181b9892720a15df1a1e561860318db40621bd4040ccdf18e110eb01d04b4"; MkChecksum "MD5" "3e02d3ab9c58eec6911dbba37570934f"], "NOASSERTION", ["NOASSERTION"], "NOASSERTION");
  ("./folder1/file4.testdata.txt", "File3", [MkChecksum "SHA1" "e623d7d7d782a7c8323c4d436acee4afab34320f"; MkChecksum "SHA256" "574fa42c5e0806c0f8906a44884166540206f021527729407cd5326838629c59"; MkChecksum "MD5" "96e6a25d35df5b1c477710ef4d0c7210"], "NOASSERTION", ["NOASSERTION"], "NOASSERTION");
  ("./lastfile.testdata.txt", "File4", [MkChecksum "SHA1" "26d6221d682d9ba59116f9753a701f34271c8ce1"; MkChecksum "SHA256" "0a4bdaf990e9b330ff72022dd78110ae98b60e08337cf2105b89856373416805"; MkChecksum "MD5" "f60baa793870d9085461ad6bbab50b7f"], "NOASSERTION", ["NOASSERTION"], "NOASSERTION")])).
Proof. vm_compute. reflexivity. Qed.
Definition seen_files (d : Document) := map (fun p => (map (fun f => (f_FileName f, f_LicenseInfoInFiles f, f_LicenseConcluded f)) (p_Files p), p_LicenseInfoFromFiles p)) (d_Packages d).
(** /repo/idsearcher/idsearcher_test.go 9: TestSearcherCanFillInIDs *)
Example search_2 : (let* d := build_ids_document insertion_sorter h project2 "/repo/testdata/project2" (MkIC "https://github.com/swinslow/spdx-docs/spdx-go/testdata-" None [] "now") "project2" in Ok (map (fun x => (map (fun f => (snd (fst f), snd f)) (fst x), snd x)) (seen_files d))) =
 Ok [([(["MIT"], "MIT");
  (["GPL-2.0-or-later"], "GPL-2.0-or-later");
  (["MIT"], "MIT");
  (["Apache-2.0"; "GPL-2.0-or-later"], "Apache-2.0 OR GPL-2.0-or-later");
  (["BSD-2-Clause"; "BSD-3-Clause"; "EPL-1.0"; "ISC"; "MIT"], "((MIT AND BSD-3-Clause) OR ISC) AND BSD-2-Clause AND EPL-1.0+");
  (["NOASSERTION"], "NOASSERTION")], ["Apache-2.0"; "BSD-2-Clause"; "BSD-3-Clause"; "EPL-1.0"; "GPL-2.0-or-later"; "ISC"; "MIT"])].
Proof. vm_compute. reflexivity. Qed.
(** /repo/idsearcher/idsearcher_test.go 177: TestSearcherCanFillInIDsAndIgnorePaths *)
Example search_SearcherCanFillInIDsAndIgnorePaths : (let* d := build_ids_document insertion_sorter h project3 "/repo/testdata/project3" (MkIC "x" (Some ["**/ignoredir/"; "/excludedir/"; "**/ignorefile.txt"; "/alsoEXCLUDEthis.txt"]) ["**/dontscan.txt"] "now") "project3" in Ok (map fst (seen_files d))) = Ok [[("./dontscan.txt", ["NOASSERTION"], "NOASSERTION"); ("./keep/keep.txt", ["MIT"], "MIT"); ("./keep.txt", ["NOASSERTION"], "NOASSERTION"); ("./subdir/keep/dontscan.txt", ["NOASSERTION"], "NOASSERTION"); ("./subdir/keep/keep.txt", ["MIT"], "MIT")]].
Proof. vm_compute. reflexivity. Qed.
(** /repo/idsearcher/idsearcher_test.go 298: TestCanFindShortFormIDWhenPresent *)
Example ids_CanFindShortFormIDWhenPresent : option_map (search_file_ids insertion_sorter) (open_file project2 "/has-id.txt") = Some ["Apache-2.0 OR GPL-2.0-or-later"].
Proof. vm_compute. reflexivity. Qed.
(** /repo/idsearcher/idsearcher_test.go 315: TestCanFindMultipleShortFormIDsWhenPresent *)
Example ids_CanFindMultipleShortFormIDsWhenPresent : option_map (search_file_ids insertion_sorter) (open_file project2 "/has-multiple-ids.txt") = Some ["(MIT AND BSD-3-Clause) OR ISC"; "BSD-2-Clause"; "EPL-1.0+"].
Proof. vm_compute. reflexivity. Qed.
(** /repo/idsearcher/idsearcher_test.go 338: TestCanCollapseDuplicateShortFormIDsWhenPresent *)
Example ids_CanCollapseDuplicateShortFormIDsWhenPresent : option_map (search_file_ids insertion_sorter) (open_file project2 "/has-duplicate-ids.txt") = Some ["MIT"].
Proof. vm_compute. reflexivity. Qed.
(** /repo/idsearcher/idsearcher_test.go 355: TestCanStripTrailingStarSlash *)
Example ids_CanStripTrailingStarSlash : option_map (search_file_ids insertion_sorter) (open_file project2 "/folder/has-trailing-comment-marker.c") = Some ["GPL-2.0-or-later"].
Proof. vm_compute. reflexivity. Qed.
(** /repo/idsearcher/idsearcher_test.go 372: TestCanIgnoreShortFormIDWhenTooManyPrefixChars *)
Example ids_CanIgnoreShortFormIDWhenTooManyPrefixChars : option_map (search_file_ids insertion_sorter) (open_file project4 "/has-id-to-ignore.txt") = Some [].
Proof. vm_compute. reflexivity. Qed.
(** /repo/idsearcher/idsearcher_test.go 385: TestCanPickJustTheRightID *)
Example ids_CanPickJustTheRightID : option_map (search_file_ids insertion_sorter) (open_file project4 "/has-mix-of-ids.txt") = Some ["MIT"].
Proof. vm_compute. reflexivity. Qed.
(** /repo/idsearcher/idsearcher_test.go 402: TestCannotFindShortFormIDWhenAbsent *)
Example ids_CannotFindShortFormIDWhenAbsent : option_map (search_file_ids insertion_sorter) (open_file project2 "/no-id.txt") = Some [].
Proof. vm_compute. reflexivity. Qed.
(** /repo/idsearcher/idsearcher_test.go 415: TestCanExcludeTrashCharactersFromID *)
Example trash_CanExcludeTrashCharactersFromID : [strip_trash ("Apac"",he-2.0"); strip_trash ("Apache-2.0")] = ["Apache-2.0"; "Apache-2.0"].
Proof. vm_compute. reflexivity. Qed.
(** /repo/idsearcher/idsearcher_test.go 440: TestWillParenthesizeIfNeeded *)
Example element_WillParenthesizeIfNeeded : map make_element ["MIT OR BSD-3-Clause"; "ISC AND HPND"] = ["(MIT OR BSD-3-Clause)"; "(ISC AND HPND)"].
Proof. vm_compute. reflexivity. Qed.
(** /repo/idsearcher/idsearcher_test.go 454: TestWillNotParenthesizeIfNotNeeded *)
Example element_WillNotParenthesizeIfNotNeeded : map make_element ["MIT"; "GPL-2.0-only WITH Classpath-exception-2.0"] = ["MIT"; "GPL-2.0-only WITH Classpath-exception-2.0"].
Proof. vm_compute. reflexivity. Qed.
(** /repo/idsearcher/idsearcher_test.go 468: TestCanGetIndividualLicenses *)
Example individual_CanGetIndividualLicenses : map (get_individual_licenses insertion_sorter) ["MIT"; "ISC AND BSD-3-Clause"; "GPL-2.0-only WITH Classpath-exception-2.0"; "(JSON OR BSD-2-Clause)"; "GPL-2.0-only AND ((EPL-1.0 AND BSD-4-Clause) OR MIT)"] =
 [["MIT"]; ["BSD-3-Clause"; "ISC"]; ["Classpath-exception-2.0"; "GPL-2.0-only"]; ["BSD-2-Clause"; "JSON"]; ["BSD-4-Clause"; "EPL-1.0"; "GPL-2.0-only"; "MIT"]].
Proof. vm_compute. reflexivity. Qed.
(** /repo/idsearcher/idsearcher_test.go 556: TestCanGetIndividualLicensesIgnoringOperatorCase *)
Example individual_CanGetIndividualLicensesIgnoringOperatorCase : map (get_individual_licenses insertion_sorter) ["ISC and BSD-3-Clause"; "ISC or BSD-3-Clause"; "GPL-2.0-only with Classpath-exception-2.0"] =
 [["BSD-3-Clause"; "ISC"]; ["BSD-3-Clause"; "ISC"]; ["Classpath-exception-2.0"; "GPL-2.0-only"]].
Proof. vm_compute. reflexivity. Qed.
(** /repo/spdxlib/described_elements_test.go 12: TestCanGetIDsOfDescribedPackages *)
Example lib_CanGetIDsOfDescribedPackages : get_described_package_ids insertion_sorter ((set_d_Relationships [(set_r_Relationship ("DESCRIBES")
 (set_r_RefB (MkDEID "" "p1" "")
 (set_r_RefA (MkDEID "" "DOCUMENT" "")
 zero_Relationship))); (set_r_Relationship ("DESCRIBES")
 (set_r_RefB (MkDEID "" "p5" "")
 (set_r_RefA (MkDEID "" "DOCUMENT" "")
 zero_Relationship))); (set_r_Relationship ("DESCRIBED_BY")
 (set_r_RefB (MkDEID "" "DOCUMENT" "")
 (set_r_RefA (MkDEID "" "p4" "")
 zero_Relationship))); (set_r_Relationship ("DEPENDS_ON")
 (set_r_RefB (MkDEID "" "p2" "")
 (set_r_RefA (MkDEID "" "p1" "")
 zero_Relationship)))]
 (set_d_Packages [(set_p_SPDXIdentifier ("p1")
 (set_p_PackageName ("pkg1")
 zero_PackageOf)); (set_p_SPDXIdentifier ("p2")
 (set_p_PackageName ("pkg2")
 zero_PackageOf)); (set_p_SPDXIdentifier ("p3")
 (set_p_PackageName ("pkg3")
 zero_PackageOf)); (set_p_SPDXIdentifier ("p4")
 (set_p_PackageName ("pkg4")
 zero_PackageOf)); (set_p_SPDXIdentifier ("p5")
 (set_p_PackageName ("pkg5")
 zero_PackageOf))]
 (set_d_CreationInfo (Some zero_CreationInfo)
 (set_d_SPDXIdentifier ("DOCUMENT")
 (set_d_DataLicense ("CC0-1.0")
 (set_d_SPDXVersion ("SPDX-2.3")
 zero_DocumentOf))))))) = Ok ["p1"; "p4"; "p5"].
Proof. vm_compute. reflexivity. Qed.
(** /repo/spdxlib/described_elements_test.go 72: TestGetDescribedPackagesReturnsSinglePackageIfOnlyOne *)
Example lib_GetDescribedPackagesReturnsSinglePackageIfOnlyOne : get_described_package_ids insertion_sorter ((set_d_Packages [(set_p_SPDXIdentifier ("p1")
 (set_p_PackageName ("pkg1")
 zero_PackageOf))]
 (set_d_CreationInfo (Some zero_CreationInfo)
 (set_d_SPDXIdentifier ("DOCUMENT")
 (set_d_DataLicense ("CC0-1.0")
 (set_d_SPDXVersion ("SPDX-2.3")
 zero_DocumentOf)))))) = Ok ["p1"].
Proof. vm_compute. reflexivity. Qed.
(** /repo/spdxlib/described_elements_test.go 99: TestFailsToGetDescribedPackagesIfMoreThanOneWithoutDescribesRelationship *)
Example lib_FailsToGetDescribedPackagesIfMoreThanOneWithoutDescribesRelationship : match get_described_package_ids insertion_sorter ((set_d_Relationships [(set_r_Relationship ("DEPENDS_ON")
 (set_r_RefB (MkDEID "" "p2" "")
 (set_r_RefA (MkDEID "" "p1" "")
 zero_Relationship)))]
 (set_d_Packages [(set_p_SPDXIdentifier ("p1")
 (set_p_PackageName ("pkg1")
 zero_PackageOf)); (set_p_SPDXIdentifier ("p2")
 (set_p_PackageName ("pkg2")
 zero_PackageOf)); (set_p_SPDXIdentifier ("p3")
 (set_p_PackageName ("pkg3")
 zero_PackageOf)); (set_p_SPDXIdentifier ("p4")
 (set_p_PackageName ("pkg4")
 zero_PackageOf)); (set_p_SPDXIdentifier ("p5")
 (set_p_PackageName ("pkg5")
 zero_PackageOf))]
 (set_d_CreationInfo (Some zero_CreationInfo)
 (set_d_SPDXIdentifier ("DOCUMENT")
 (set_d_DataLicense ("CC0-1.0")
 (set_d_SPDXVersion ("SPDX-2.3")
 zero_DocumentOf))))))) with Err _ => true | _ => false end = true.
Proof. vm_compute. reflexivity. Qed.
(** /repo/spdxlib/described_elements_test.go 129: TestFailsToGetDescribedPackagesIfMoreThanOneWithNilRelationships *)
Example lib_FailsToGetDescribedPackagesIfMoreThanOneWithNilRelationships : match get_described_package_ids insertion_sorter ((set_d_Packages [(set_p_SPDXIdentifier ("p1")
 (set_p_PackageName ("pkg1")
 zero_PackageOf)); (set_p_SPDXIdentifier ("p2")
 (set_p_PackageName ("pkg2")
 zero_PackageOf))]
 (set_d_CreationInfo (Some zero_CreationInfo)
 (set_d_SPDXIdentifier ("DOCUMENT")
 (set_d_DataLicense ("CC0-1.0")
 (set_d_SPDXVersion ("SPDX-2.3")
 zero_DocumentOf)))))) with Err _ => true | _ => false end = true.
Proof. vm_compute. reflexivity. Qed.
(** /repo/spdxlib/described_elements_test.go 148: TestFailsToGetDescribedPackagesIfZeroPackagesInMap *)
Example lib_FailsToGetDescribedPackagesIfZeroPackagesInMap : match get_described_package_ids insertion_sorter ((set_d_Packages []
 (set_d_CreationInfo (Some zero_CreationInfo)
 (set_d_SPDXIdentifier ("DOCUMENT")
 (set_d_DataLicense ("CC0-1.0")
 (set_d_SPDXVersion ("SPDX-2.3")
 zero_DocumentOf)))))) with Err _ => true | _ => false end = true.
Proof. vm_compute. reflexivity. Qed.
(** /repo/spdxlib/described_elements_test.go 164: TestFailsToGetDescribedPackagesIfNilMap *)
Example lib_FailsToGetDescribedPackagesIfNilMap : match get_described_package_ids insertion_sorter ((set_d_CreationInfo (Some zero_CreationInfo)
 (set_d_SPDXIdentifier ("DOCUMENT")
 (set_d_DataLicense ("CC0-1.0")
 (set_d_SPDXVersion ("SPDX-2.3")
 zero_DocumentOf))))) with Err _ => true | _ => false end = true.
Proof. vm_compute. reflexivity. Qed.
(** /repo/spdxlib/documents_test.go 12: TestValidDocumentPassesValidation *)
Example lib_ValidDocumentPassesValidation : validate_document ((set_d_Relationships [(set_r_Relationship ("DESCRIBES")
 (set_r_RefB (MkDEID "" "p1" "")
 (set_r_RefA (MkDEID "" "DOCUMENT" "")
 zero_Relationship))); (set_r_Relationship ("DESCRIBES")
 (set_r_RefB (MkDEID "" "p5" "")
 (set_r_RefA (MkDEID "" "DOCUMENT" "")
 zero_Relationship))); (set_r_Relationship ("DESCRIBED_BY")
 (set_r_RefB (MkDEID "" "DOCUMENT" "")
 (set_r_RefA (MkDEID "" "p4" "")
 zero_Relationship))); (set_r_Relationship ("DEPENDS_ON")
 (set_r_RefB (MkDEID "" "p2" "")
 (set_r_RefA (MkDEID "" "p1" "")
 zero_Relationship)))]
 (set_d_Files [(set_f_SPDXIdentifier ("f1")
 (set_f_FileName ("file1")
 zero_FileOf))]
 (set_d_Packages [(set_p_SPDXIdentifier ("p1")
 (set_p_PackageName ("pkg1")
 zero_PackageOf)); (set_p_SPDXIdentifier ("p2")
 (set_p_PackageName ("pkg2")
 zero_PackageOf)); (set_p_SPDXIdentifier ("p3")
 (set_p_PackageName ("pkg3")
 zero_PackageOf)); (set_p_SPDXIdentifier ("p4")
 (set_p_PackageName ("pkg4")
 zero_PackageOf)); (set_p_SPDXIdentifier ("p5")
 (set_p_PackageName ("pkg5")
 zero_PackageOf))]
 (set_d_CreationInfo (Some zero_CreationInfo)
 (set_d_SPDXIdentifier ("DOCUMENT")
 (set_d_DataLicense ("CC0-1.0")
 (set_d_SPDXVersion ("SPDX-2.3")
 zero_DocumentOf)))))))) = Ok tt.
Proof. vm_compute. reflexivity. Qed.
(** /repo/spdxlib/documents_test.go 61: TestInvalidDocumentFailsValidation *)
Example lib_InvalidDocumentFailsValidation : match validate_document ((set_d_Relationships [(set_r_Relationship ("DESCRIBES")
 (set_r_RefB (MkDEID "" "p1" "")
 (set_r_RefA (MkDEID "" "DOCUMENT" "")
 zero_Relationship))); (set_r_Relationship ("DESCRIBES")
 (set_r_RefB (MkDEID "" "p5" "")
 (set_r_RefA (MkDEID "" "DOCUMENT" "")
 zero_Relationship))); (set_r_Relationship ("DEPENDS_ON")
 (set_r_RefB (MkDEID "" "p99" "")
 (set_r_RefA (MkDEID "" "p1" "")
 zero_Relationship)))]
 (set_d_Packages [(set_p_SPDXIdentifier ("p1")
 (set_p_PackageName ("pkg1")
 zero_PackageOf)); (set_p_SPDXIdentifier ("p2")
 (set_p_PackageName ("pkg2")
 zero_PackageOf)); (set_p_SPDXIdentifier ("p3")
 (set_p_PackageName ("pkg3")
 zero_PackageOf))]
 (set_d_CreationInfo (Some zero_CreationInfo)
 (set_d_SPDXIdentifier ("DOCUMENT")
 (set_d_DataLicense ("CC0-1.0")
 (set_d_SPDXVersion ("SPDX-2.3")
 zero_DocumentOf))))))) with Err _ => true | _ => false end = true.
Proof. vm_compute. reflexivity. Qed.
(** /repo/spdxlib/documents_test.go 61: TestInvalidDocumentFailsValidation *)
Example lib_InvalidDocumentFailsValidation_2 : match validate_document ((set_d_Relationships [(set_r_Relationship ("DEPENDS_ON")
 (set_r_RefB (MkDEID "" "p99" "")
 (set_r_RefA (MkDEID "" "p1" "")
 zero_Relationship)))]
 (set_d_CreationInfo (Some zero_CreationInfo)
 (set_d_SPDXIdentifier ("DOCUMENT")
 (set_d_DataLicense ("CC0-1.0")
 (set_d_SPDXVersion ("SPDX-2.3")
 zero_DocumentOf)))))) with Err _ => true | _ => false end = true.
Proof. vm_compute. reflexivity. Qed.
(** /repo/spdxlib/element_ids_test.go 12: TestSortElementIDs *)
Example lib_sort : sort_element_ids insertion_sorter ["def"; "abc"; "123"] = ["123"; "abc"; "def"].
Proof. vm_compute. reflexivity. Qed.
(** /repo/spdxlib/relationships_test.go 12: TestFindsDependsOnRelationships *)
Example lib_filter : filter_relationships (d_Relationships ((set_d_Relationships [(set_r_Relationship ("DESCRIBES")
 (set_r_RefB (MkDEID "" "p1" "")
 (set_r_RefA (MkDEID "" "DOCUMENT" "")
 zero_Relationship))); (set_r_Relationship ("DESCRIBES")
 (set_r_RefB (MkDEID "" "p5" "")
 (set_r_RefA (MkDEID "" "DOCUMENT" "")
 zero_Relationship))); (set_r_Relationship ("DESCRIBED_BY")
 (set_r_RefB (MkDEID "" "DOCUMENT" "")
 (set_r_RefA (MkDEID "" "p4" "")
 zero_Relationship))); (set_r_Relationship ("DEPENDS_ON")
 (set_r_RefB (MkDEID "" "p2" "")
 (set_r_RefA (MkDEID "" "p1" "")
 zero_Relationship)))]
 (set_d_Packages [(set_p_SPDXIdentifier ("p1")
 (set_p_PackageName ("pkg1")
 zero_PackageOf)); (set_p_SPDXIdentifier ("p2")
 (set_p_PackageName ("pkg2")
 zero_PackageOf)); (set_p_SPDXIdentifier ("p3")
 (set_p_PackageName ("pkg3")
 zero_PackageOf)); (set_p_SPDXIdentifier ("p4")
 (set_p_PackageName ("pkg4")
 zero_PackageOf)); (set_p_SPDXIdentifier ("p5")
 (set_p_PackageName ("pkg5")
 zero_PackageOf))]
 (set_d_CreationInfo (Some zero_CreationInfo)
 (set_d_SPDXIdentifier ("DOCUMENT")
 (set_d_DataLicense ("CC0-1.0")
 (set_d_SPDXVersion ("SPDX-2.3")
 zero_DocumentOf)))))) : Document)) (fun r =>
  let p1 := make_doc_element_id "" "p1" in
  if String.eqb (r_Relationship r) "DEPENDS_ON" && deid_eqb (r_RefA r) p1 then Some (de_ElementRefID (r_RefB r))
  else if String.eqb (r_Relationship r) "DEPENDENCY_OF" && deid_eqb (r_RefB r) p1 then Some (de_ElementRefID (r_RefA r)) else None) = ["p2"].
Proof. vm_compute. reflexivity. Qed.
Definition ld_ffPairs_f1 : File := (set_f_CopyrightText ("We'll ignore copyright values")
 (set_f_LicenseInfoInFiles [("LicenseRef-We-will-ignore-LicenseInfoInFiles")]
 (set_f_LicenseConcluded ("Apache-2.0")
 (set_f_Checksums [(set_ck_Value ("6c92dc8bc462b6889d9b1c0bc16c54d19a2cbdd3")
 (set_ck_Algorithm ("SHA1")
 zero_Checksum))]
 (set_f_SPDXIdentifier ("File561")
 (set_f_FileName ("/project/file1.txt")
 zero_FileOf)))))).
Definition ld_ffPairs_f2 : File := (set_f_CopyrightText ("NOASSERTION")
 (set_f_LicenseInfoInFiles [("NOASSERTION")]
 (set_f_LicenseConcluded ("GPL-2.0-or-later")
 (set_f_Checksums [(set_ck_Value ("6c92dc8bc462b6889d9b1c0bc16c54d19a2cbdd3")
 (set_ck_Algorithm ("SHA1")
 zero_Checksum))]
 (set_f_SPDXIdentifier ("File562")
 (set_f_FileName ("/project/file2.txt")
 zero_FileOf)))))).
Definition ld_ffPairs_f3 : File := (set_f_CopyrightText ("NOASSERTION")
 (set_f_LicenseInfoInFiles [("NOASSERTION")]
 (set_f_LicenseConcluded ("MPL-2.0")
 (set_f_Checksums [(set_ck_Value ("6c92dc8bc462b6889d9b1c0bc16c54d19a2cbdd3")
 (set_ck_Algorithm ("SHA1")
 zero_Checksum))]
 (set_f_SPDXIdentifier ("File563")
 (set_f_FileName ("/project/file3.txt")
 zero_FileOf)))))).
Definition ld_ffPairs_f4_1 : File := (set_f_CopyrightText ("NOASSERTION")
 (set_f_LicenseInfoInFiles [("NOASSERTION")]
 (set_f_LicenseConcluded ("MIT")
 (set_f_Checksums [(set_ck_Value ("6c92dc8bc462b6889d9b1c0bc16c54d19a2cbdd3")
 (set_ck_Algorithm ("SHA1")
 zero_Checksum))]
 (set_f_SPDXIdentifier ("File564")
 (set_f_FileName ("/project/file4.txt")
 zero_FileOf)))))).
Definition ld_ffPairs_f4_2 : File := (set_f_CopyrightText ("NOASSERTION")
 (set_f_LicenseInfoInFiles [("NOASSERTION")]
 (set_f_LicenseConcluded ("Apache-2.0 AND MIT")
 (set_f_Checksums [(set_ck_Value ("6c92dc8bc462b6889d9b1c0bc16c54d19a2cbdd3")
 (set_ck_Algorithm ("SHA1")
 zero_Checksum))]
 (set_f_SPDXIdentifier ("File564")
 (set_f_FileName ("/project/file4.txt")
 zero_FileOf)))))).
Definition ld_ffPairs_f5_1 : File := (set_f_CopyrightText ("NOASSERTION")
 (set_f_LicenseInfoInFiles [("NOASSERTION")]
 (set_f_LicenseConcluded ("BSD-3-Clause")
 (set_f_Checksums [(set_ck_Value ("6c92dc8bc462b6889d9b1c0bc16c54d19a2cbdd3")
 (set_ck_Algorithm ("SHA1")
 zero_Checksum))]
 (set_f_SPDXIdentifier ("File565")
 (set_f_FileName ("/project/file5.txt")
 zero_FileOf)))))).
Definition ld_ffPairs_f5_2 : File := (set_f_CopyrightText ("NOASSERTION")
 (set_f_LicenseInfoInFiles [("NOASSERTION")]
 (set_f_LicenseConcluded ("BSD-3-Clause")
 (set_f_Checksums [(set_ck_Value ("6c92dc8bc462b6889d9b1c0bc16c54d19a2cbdd3")
 (set_ck_Algorithm ("SHA1")
 zero_Checksum))]
 (set_f_SPDXIdentifier ("File565")
 (set_f_FileName ("/project/file5.txt")
 zero_FileOf)))))).
Definition ld_ffPairs_f6_1 : File := (set_f_CopyrightText ("NOASSERTION")
 (set_f_LicenseInfoInFiles [("NOASSERTION")]
 (set_f_LicenseConcluded ("CC0-1.0")
 (set_f_Checksums [(set_ck_Value ("6c92dc8bc462b6889d9b1c0bc16c54d19a2cbdd3")
 (set_ck_Algorithm ("SHA1")
 zero_Checksum))]
 (set_f_SPDXIdentifier ("File566")
 (set_f_FileName ("/project/file6.txt")
 zero_FileOf)))))).
Definition ld_ffPairs_f6_2 : File := (set_f_CopyrightText ("NOASSERTION")
 (set_f_LicenseInfoInFiles [("NOASSERTION")]
 (set_f_LicenseConcluded ("Unlicense")
 (set_f_Checksums [(set_ck_Value ("6c92dc8bc462b6889d9b1c0bc16c54d19a2cbdd3")
 (set_ck_Algorithm ("SHA1")
 zero_Checksum))]
 (set_f_SPDXIdentifier ("File566")
 (set_f_FileName ("/project/file6.txt")
 zero_FileOf)))))).
Definition ld_ffPairs_p1 : Package := (set_p_Files [ld_ffPairs_f1; ld_ffPairs_f2; ld_ffPairs_f4_1; ld_ffPairs_f5_1; ld_ffPairs_f6_1]
 (set_p_CopyrightText ("NOASSERTION")
 (set_p_LicenseDeclared ("NOASSERTION")
 (set_p_LicenseInfoFromFiles [("NOASSERTION")]
 (set_p_LicenseConcluded ("NOASSERTION")
 (set_p_VerificationCode (Some (set_vc_Value ("abc123abc123")
 zero_VerificationCode))
 (set_p_IsFilesAnalyzedTagPresent true
 (set_p_FilesAnalyzed true
 (set_p_DownloadLocation ("NOASSERTION")
 (set_p_SPDXIdentifier ("p1")
 (set_p_PackageName ("p1")
 zero_PackageOf))))))))))).
Definition ld_ffPairs_p2 : Package := (set_p_Files [ld_ffPairs_f1; ld_ffPairs_f3; ld_ffPairs_f4_2; ld_ffPairs_f5_2; ld_ffPairs_f6_2]
 (set_p_CopyrightText ("NOASSERTION")
 (set_p_LicenseDeclared ("NOASSERTION")
 (set_p_LicenseInfoFromFiles [("NOASSERTION")]
 (set_p_LicenseConcluded ("NOASSERTION")
 (set_p_VerificationCode (Some (set_vc_Value ("def456def456")
 zero_VerificationCode))
 (set_p_IsFilesAnalyzedTagPresent true
 (set_p_FilesAnalyzed true
 (set_p_DownloadLocation ("NOASSERTION")
 (set_p_SPDXIdentifier ("p2")
 (set_p_PackageName ("p2")
 zero_PackageOf))))))))))).
(** /repo/licensediff/licensediff_test.go 12: TestDifferCanCreateDiffPairs *)
Example pairs_DifferCanCreateDiffPairs : (List.length (make_pairs ld_ffPairs_p1 ld_ffPairs_p2), map (fun k => map_get k (make_pairs ld_ffPairs_p1 ld_ffPairs_p2)) ["/project/file1.txt"; "/project/file2.txt"; "/project/file3.txt"; "/project/file4.txt"; "/project/file5.txt"; "/project/file6.txt"]) =
 (6, [Some (MkLP (f_LicenseConcluded ld_ffPairs_f1) (f_LicenseConcluded ld_ffPairs_f1)); Some (MkLP (f_LicenseConcluded ld_ffPairs_f2) ("")); Some (MkLP ("") (f_LicenseConcluded ld_ffPairs_f3)); Some (MkLP (f_LicenseConcluded ld_ffPairs_f4_1) (f_LicenseConcluded ld_ffPairs_f4_2)); Some (MkLP (f_LicenseConcluded ld_ffPairs_f5_1) (f_LicenseConcluded ld_ffPairs_f5_2)); Some (MkLP (f_LicenseConcluded ld_ffPairs_f6_1) (f_LicenseConcluded ld_ffPairs_f6_2))]).
Proof. vm_compute. reflexivity. Qed.
Definition ld_Results_f1 : File := (set_f_CopyrightText ("We'll ignore copyright values")
 (set_f_LicenseInfoInFiles [("LicenseRef-We-will-ignore-LicenseInfoInFiles")]
 (set_f_LicenseConcluded ("Apache-2.0")
 (set_f_Checksums [(set_ck_Value ("6c92dc8bc462b6889d9b1c0bc16c54d19a2cbdd3")
 (set_ck_Algorithm ("SHA1")
 zero_Checksum))]
 (set_f_SPDXIdentifier ("File561")
 (set_f_FileName ("/project/file1.txt")
 zero_FileOf)))))).
Definition ld_Results_f2 : File := (set_f_CopyrightText ("NOASSERTION")
 (set_f_LicenseInfoInFiles [("NOASSERTION")]
 (set_f_LicenseConcluded ("GPL-2.0-or-later")
 (set_f_Checksums [(set_ck_Value ("6c92dc8bc462b6889d9b1c0bc16c54d19a2cbdd3")
 (set_ck_Algorithm ("SHA1")
 zero_Checksum))]
 (set_f_SPDXIdentifier ("File562")
 (set_f_FileName ("/project/file2.txt")
 zero_FileOf)))))).
Definition ld_Results_f3 : File := (set_f_CopyrightText ("NOASSERTION")
 (set_f_LicenseInfoInFiles [("NOASSERTION")]
 (set_f_LicenseConcluded ("MPL-2.0")
 (set_f_Checksums [(set_ck_Value ("6c92dc8bc462b6889d9b1c0bc16c54d19a2cbdd3")
 (set_ck_Algorithm ("SHA1")
 zero_Checksum))]
 (set_f_SPDXIdentifier ("File563")
 (set_f_FileName ("/project/file3.txt")
 zero_FileOf)))))).
Definition ld_Results_f4_1 : File := (set_f_CopyrightText ("NOASSERTION")
 (set_f_LicenseInfoInFiles [("NOASSERTION")]
 (set_f_LicenseConcluded ("MIT")
 (set_f_Checksums [(set_ck_Value ("6c92dc8bc462b6889d9b1c0bc16c54d19a2cbdd3")
 (set_ck_Algorithm ("SHA1")
 zero_Checksum))]
 (set_f_SPDXIdentifier ("File564")
 (set_f_FileName ("/project/file4.txt")
 zero_FileOf)))))).
Definition ld_Results_f4_2 : File := (set_f_CopyrightText ("NOASSERTION")
 (set_f_LicenseInfoInFiles [("NOASSERTION")]
 (set_f_LicenseConcluded ("Apache-2.0 AND MIT")
 (set_f_Checksums [(set_ck_Value ("6c92dc8bc462b6889d9b1c0bc16c54d19a2cbdd3")
 (set_ck_Algorithm ("SHA1")
 zero_Checksum))]
 (set_f_SPDXIdentifier ("File564")
 (set_f_FileName ("/project/file4.txt")
 zero_FileOf)))))).
Definition ld_Results_f5_1 : File := (set_f_CopyrightText ("NOASSERTION")
 (set_f_LicenseInfoInFiles [("NOASSERTION")]
 (set_f_LicenseConcluded ("BSD-3-Clause")
 (set_f_SPDXIdentifier ("File565")
 (set_f_FileName ("/project/file5.txt")
 zero_FileOf))))).
Definition ld_Results_f5_2 : File := (set_f_CopyrightText ("NOASSERTION")
 (set_f_LicenseInfoInFiles [("NOASSERTION")]
 (set_f_LicenseConcluded ("BSD-3-Clause")
 (set_f_Checksums [(set_ck_Value ("6c92dc8bc462b6889d9b1c0bc16c54d19a2cbdd3")
 (set_ck_Algorithm ("SHA1")
 zero_Checksum))]
 (set_f_SPDXIdentifier ("File565")
 (set_f_FileName ("/project/file5.txt")
 zero_FileOf)))))).
Definition ld_Results_f6_1 : File := (set_f_CopyrightText ("NOASSERTION")
 (set_f_LicenseInfoInFiles [("NOASSERTION")]
 (set_f_LicenseConcluded ("CC0-1.0")
 (set_f_Checksums [(set_ck_Value ("6c92dc8bc462b6889d9b1c0bc16c54d19a2cbdd3")
 (set_ck_Algorithm ("SHA1")
 zero_Checksum))]
 (set_f_SPDXIdentifier ("File566")
 (set_f_FileName ("/project/file6.txt")
 zero_FileOf)))))).
Definition ld_Results_f6_2 : File := (set_f_CopyrightText ("NOASSERTION")
 (set_f_LicenseInfoInFiles [("NOASSERTION")]
 (set_f_LicenseConcluded ("Unlicense")
 (set_f_Checksums [(set_ck_Value ("6c92dc8bc462b6889d9b1c0bc16c54d19a2cbdd3")
 (set_ck_Algorithm ("SHA1")
 zero_Checksum))]
 (set_f_SPDXIdentifier ("File566")
 (set_f_FileName ("/project/file6.txt")
 zero_FileOf)))))).
Definition ld_Results_p1 : Package := (set_p_Files [ld_Results_f1; ld_Results_f2; ld_Results_f4_1; ld_Results_f5_1; ld_Results_f6_1]
 (set_p_CopyrightText ("NOASSERTION")
 (set_p_LicenseDeclared ("NOASSERTION")
 (set_p_LicenseInfoFromFiles [("NOASSERTION")]
 (set_p_LicenseConcluded ("NOASSERTION")
 (set_p_VerificationCode (Some (set_vc_Value ("abc123abc123")
 zero_VerificationCode))
 (set_p_IsFilesAnalyzedTagPresent true
 (set_p_FilesAnalyzed true
 (set_p_DownloadLocation ("NOASSERTION")
 (set_p_SPDXIdentifier ("p1")
 (set_p_PackageName ("p1")
 zero_PackageOf))))))))))).
Definition ld_Results_p2 : Package := (set_p_Files [ld_Results_f1; ld_Results_f3; ld_Results_f4_2; ld_Results_f5_2; ld_Results_f6_2]
 (set_p_CopyrightText ("NOASSERTION")
 (set_p_LicenseDeclared ("NOASSERTION")
 (set_p_LicenseInfoFromFiles [("NOASSERTION")]
 (set_p_LicenseConcluded ("NOASSERTION")
 (set_p_VerificationCode (Some (set_vc_Value ("def456def456")
 zero_VerificationCode))
 (set_p_IsFilesAnalyzedTagPresent true
 (set_p_FilesAnalyzed true
 (set_p_DownloadLocation ("NOASSERTION")
 (set_p_SPDXIdentifier ("p2")
 (set_p_PackageName ("p2")
 zero_PackageOf))))))))))).
(** /repo/licensediff/licensediff_test.go 287: TestDifferCanCreateDiffStructuredResults *)
Example results_DifferCanCreateDiffStructuredResults : let r := make_results (make_pairs ld_Results_p1 ld_Results_p2) in
 List.length (ld_InBothChanged r) = 2 /\ List.length (ld_InBothSame r) = 2 /\ List.length (ld_InFirstOnly r) = 1 /\ List.length (ld_InSecondOnly r) = 1 /\
 map_get "/project/file4.txt" (ld_InBothChanged r) = Some (MkLP (f_LicenseConcluded ld_Results_f4_1) (f_LicenseConcluded ld_Results_f4_2)) /\
 map_get "/project/file6.txt" (ld_InBothChanged r) = Some (MkLP (f_LicenseConcluded ld_Results_f6_1) (f_LicenseConcluded ld_Results_f6_2)) /\
 map_get "/project/file1.txt" (ld_InBothSame r) = Some (f_LicenseConcluded ld_Results_f1) /\
 map_get "/project/file5.txt" (ld_InBothSame r) = Some (f_LicenseConcluded ld_Results_f5_1) /\
 map_get "/project/file2.txt" (ld_InFirstOnly r) = Some (f_LicenseConcluded ld_Results_f2) /\
 map_get "/project/file3.txt" (ld_InSecondOnly r) = Some (f_LicenseConcluded ld_Results_f3).
Proof. vm_compute. repeat split. Qed.
Definition conv_source_0 : Document := (set_d_Packages [(set_p_VerificationCode (Some (set_vc_ExcludedFiles [("a"); ("b")]
 (set_vc_Value ("verification code value")
 zero_VerificationCode)))
 (set_p_Files [(set_f_FileName ("File 1")
 zero_FileOf); (set_f_FileName ("File 2")
 zero_FileOf)]
 (set_p_PackageName ("Pkg 1")
 zero_PackageOf)))]
 (set_d_SPDXVersion ("SPDX-2.2")
 zero_DocumentOf)).
Definition conv_expected_0 : Document := (set_d_Packages [(set_p_VerificationCode (Some (set_vc_ExcludedFiles [("a"); ("b")]
 (set_vc_Value ("verification code value")
 zero_VerificationCode)))
 (set_p_Files [(set_f_FileName ("File 1")
 zero_FileOf); (set_f_FileName ("File 2")
 zero_FileOf)]
 (set_p_PackageName ("Pkg 1")
 zero_PackageOf)))]
 (set_d_SPDXVersion ("SPDX-2.3")
 zero_DocumentOf)).
(** /repo/convert/spdx_document_conversion_test.go 25: basic v2_2 to v2_3 *)
Example convert_0 : map (fun dz => convert_document dz V22 V23 (go_document V22 conv_source_0)) [true; false] = [Ok (go_document V23 conv_expected_0); Ok (go_document V23 conv_expected_0)].
Proof. vm_compute. reflexivity. Qed.
Definition conv_source_1 : Document := (set_d_Reviews [(set_rv_Comment ("comment 1")
 (set_rv_Date ("date 1")
 (set_rv_ReviewerType ("type 1")
 (set_rv_Reviewer ("reviewer 1")
 zero_Review)))); (set_rv_Comment ("comment 2")
 (set_rv_Date ("date 2")
 (set_rv_ReviewerType ("type 2")
 (set_rv_Reviewer ("reviewer 2")
 zero_Review))))]
 (set_d_Snippets [(set_s_Name ("name 1")
 (set_s_Comment ("comment 1")
 (set_s_CopyrightText ("copy 1")
 (set_s_LicenseComments ("license comment 1")
 (set_s_LicenseInfoInSnippet [("a"); ("b")]
 (set_s_LicenseConcluded ("license 1")
 (set_s_Ranges [(set_sr_EndPointer (set_rp_FileSPDXIdentifier ("f2")
 (set_rp_LineNumber (4)%Z
 (set_rp_Offset (3)%Z
 zero_RangePointer)))
 (set_sr_StartPointer (set_rp_FileSPDXIdentifier ("f1")
 (set_rp_LineNumber (2)%Z
 (set_rp_Offset (1)%Z
 zero_RangePointer)))
 zero_SnippetRange)); (set_sr_EndPointer (set_rp_FileSPDXIdentifier ("f4")
 (set_rp_LineNumber (8)%Z
 (set_rp_Offset (7)%Z
 zero_RangePointer)))
 (set_sr_StartPointer (set_rp_FileSPDXIdentifier ("f3")
 (set_rp_LineNumber (6)%Z
 (set_rp_Offset (5)%Z
 zero_RangePointer)))
 zero_SnippetRange))]
 (set_s_FromFile ("file1")
 (set_s_SPDXIdentifier ("id1")
 zero_Snippet))))))))); (set_s_Name ("name 1")
 (set_s_Comment ("comment 1")
 (set_s_CopyrightText ("copy 1")
 (set_s_LicenseComments ("license comment 1")
 (set_s_LicenseInfoInSnippet [("a"); ("b")]
 (set_s_LicenseConcluded ("license 1")
 (set_s_Ranges [(set_sr_EndPointer (set_rp_FileSPDXIdentifier ("f4")
 (set_rp_LineNumber (8)%Z
 (set_rp_Offset (7)%Z
 zero_RangePointer)))
 (set_sr_StartPointer (set_rp_FileSPDXIdentifier ("f3")
 (set_rp_LineNumber (6)%Z
 (set_rp_Offset (5)%Z
 zero_RangePointer)))
 zero_SnippetRange)); (set_sr_EndPointer (set_rp_FileSPDXIdentifier ("f14")
 (set_rp_LineNumber (12)%Z
 (set_rp_Offset (11)%Z
 zero_RangePointer)))
 (set_sr_StartPointer (set_rp_FileSPDXIdentifier ("f13")
 (set_rp_LineNumber (10)%Z
 (set_rp_Offset (9)%Z
 zero_RangePointer)))
 zero_SnippetRange))]
 (set_s_FromFile ("file2")
 (set_s_SPDXIdentifier ("id2")
 zero_Snippet)))))))))]
 (set_d_Annotations [(set_a_Comment ("comment 1")
 (set_a_SPDXIdentifier (MkDEID "doc 1" "elem 1" "spec 1")
 (set_a_Type ("type 1")
 (set_a_Date ("date 1")
 (set_a_Annotator (set_an_AnnotatorType ("annotator type 1")
 (set_an_Annotator ("annotator 1")
 zero_Annotator))
 zero_Annotation))))); (set_a_Comment ("comment 2")
 (set_a_SPDXIdentifier (MkDEID "doc 2" "elem 2" "spec 2")
 (set_a_Type ("type 2")
 (set_a_Date ("date 2")
 (set_a_Annotator (set_an_AnnotatorType ("annotator type 2")
 (set_an_Annotator ("annotator 2")
 zero_Annotator))
 zero_Annotation)))))]
 (set_d_Relationships [(set_r_Comment ("comment 1")
 (set_r_Relationship ("type 1")
 (set_r_RefB (MkDEID "doc 2" "elem 2" "spec 2")
 (set_r_RefA (MkDEID "doc 1" "elem 1" "spec 1")
 zero_Relationship)))); (set_r_Comment ("comment 2")
 (set_r_Relationship ("type 2")
 (set_r_RefB (MkDEID "doc 4" "elem 4" "spec 4")
 (set_r_RefA (MkDEID "doc 3" "elem 3" "spec 3")
 zero_Relationship))))]
 (set_d_OtherLicenses [(set_ol_Comment ("comment 1")
 (set_ol_CrossReferences [("x1"); ("x2"); ("x3")]
 (set_ol_LicenseName ("name 1")
 (set_ol_ExtractedText ("text 1")
 (set_ol_LicenseIdentifier ("id 1")
 zero_OtherLicense))))); (set_ol_Comment ("comment 2")
 (set_ol_CrossReferences [("x4"); ("x5"); ("x6")]
 (set_ol_LicenseName ("name 2")
 (set_ol_ExtractedText ("text 2")
 (set_ol_LicenseIdentifier ("id 2")
 zero_OtherLicense)))))]
 (set_d_Files [(set_f_Annotations []
 (set_f_Snippets []
 (set_f_Dependencies [("d1"); ("d2"); ("d3"); ("d4")]
 (set_f_Contributors [("c1"); ("c2")]
 (set_f_Notice ("notice 1")
 (set_f_Comment ("comment 1")
 (set_f_Artifacts [(set_ar_URI ("uri 1")
 (set_ar_HomePage ("home 1")
 (set_ar_Name ("name 1")
 zero_Artifact))); (set_ar_URI ("uri 2")
 (set_ar_HomePage ("home 2")
 (set_ar_Name ("name 2")
 zero_Artifact)))]
 (set_f_CopyrightText ("copy 1")
 (set_f_LicenseComments ("comments 1")
 (set_f_LicenseInfoInFiles [("f1"); ("f2"); ("f3")]
 (set_f_LicenseConcluded ("concluded 1")
 (set_f_Checksums [(set_ck_Value ("val 1")
 (set_ck_Algorithm ("alg 1")
 zero_Checksum)); (set_ck_Value ("val 2")
 (set_ck_Algorithm ("alg 2")
 zero_Checksum))]
 (set_f_FileTypes [("t1"); ("t2")]
 (set_f_SPDXIdentifier ("id 1")
 (set_f_FileName ("file 1")
 zero_FileOf))))))))))))))); (set_f_Annotations []
 (set_f_Snippets []
 (set_f_Dependencies [("d1"); ("d2"); ("d3"); ("d4")]
 (set_f_Contributors [("c1"); ("c2")]
 (set_f_Notice ("notice 2")
 (set_f_Comment ("comment 2")
 (set_f_Artifacts [(set_ar_URI ("uri 2")
 (set_ar_HomePage ("home 2")
 (set_ar_Name ("name 2")
 zero_Artifact))); (set_ar_URI ("uri 4")
 (set_ar_HomePage ("home 4")
 (set_ar_Name ("name 4")
 zero_Artifact)))]
 (set_f_CopyrightText ("copy 2")
 (set_f_LicenseComments ("comments 2")
 (set_f_LicenseInfoInFiles [("f1"); ("f2"); ("f3")]
 (set_f_LicenseConcluded ("concluded 2")
 (set_f_Checksums [(set_ck_Value ("val 2")
 (set_ck_Algorithm ("alg 2")
 zero_Checksum)); (set_ck_Value ("val 3")
 (set_ck_Algorithm ("alg 3")
 zero_Checksum))]
 (set_f_FileTypes [("t3"); ("t4")]
 (set_f_SPDXIdentifier ("id 2")
 (set_f_FileName ("file 2")
 zero_FileOf)))))))))))))))]
 (set_d_Packages [(set_p_Annotations [(set_a_Comment ("comment 1")
 (set_a_SPDXIdentifier (MkDEID "doc 1" "elem 1" "spec 1")
 (set_a_Type ("type 1")
 (set_a_Date ("date 1")
 (set_a_Annotator (set_an_AnnotatorType ("typ 1")
 (set_an_Annotator ("ann 1")
 zero_Annotator))
 zero_Annotation))))); (set_a_Comment ("comment 2")
 (set_a_SPDXIdentifier (MkDEID "doc 2" "elem 2" "spec 2")
 (set_a_Type ("type 2")
 (set_a_Date ("date 2")
 (set_a_Annotator (set_an_AnnotatorType ("typ 2")
 (set_an_Annotator ("ann 2")
 zero_Annotator))
 zero_Annotation)))))]
 (set_p_Files [(set_f_Annotations [(set_a_Comment ("comment 1")
 (set_a_SPDXIdentifier (MkDEID "doc 1" "elem 1" "spec 1")
 (set_a_Type ("type 1")
 (set_a_Date ("date 1")
 (set_a_Annotator (set_an_AnnotatorType ("typ 1")
 (set_an_Annotator ("ann 1")
 zero_Annotator))
 zero_Annotation))))); (set_a_Comment ("comment 2")
 (set_a_SPDXIdentifier (MkDEID "doc 2" "elem 2" "spec 2")
 (set_a_Type ("type 2")
 (set_a_Date ("date 2")
 (set_a_Annotator (set_an_AnnotatorType ("typ 2")
 (set_an_Annotator ("ann 2")
 zero_Annotator))
 zero_Annotation)))))]
 (set_f_Snippets [("e1", (set_s_Name ("name 1")
 (set_s_Comment ("comment 1")
 (set_s_CopyrightText ("copy 1")
 (set_s_LicenseComments ("license comment 1")
 (set_s_LicenseInfoInSnippet [("a"); ("b")]
 (set_s_LicenseConcluded ("license 1")
 (set_s_Ranges [(set_sr_EndPointer (set_rp_FileSPDXIdentifier ("f2")
 (set_rp_LineNumber (4)%Z
 (set_rp_Offset (3)%Z
 zero_RangePointer)))
 (set_sr_StartPointer (set_rp_FileSPDXIdentifier ("f1")
 (set_rp_LineNumber (2)%Z
 (set_rp_Offset (1)%Z
 zero_RangePointer)))
 zero_SnippetRange)); (set_sr_EndPointer (set_rp_FileSPDXIdentifier ("f4")
 (set_rp_LineNumber (8)%Z
 (set_rp_Offset (7)%Z
 zero_RangePointer)))
 (set_sr_StartPointer (set_rp_FileSPDXIdentifier ("f3")
 (set_rp_LineNumber (6)%Z
 (set_rp_Offset (5)%Z
 zero_RangePointer)))
 zero_SnippetRange))]
 (set_s_FromFile ("file1")
 (set_s_SPDXIdentifier ("id1")
 zero_Snippet)))))))))); ("e2", (set_s_Name ("name 1")
 (set_s_Comment ("comment 1")
 (set_s_CopyrightText ("copy 1")
 (set_s_LicenseComments ("license comment 1")
 (set_s_LicenseInfoInSnippet [("a"); ("b")]
 (set_s_LicenseConcluded ("license 1")
 (set_s_Ranges [(set_sr_EndPointer (set_rp_FileSPDXIdentifier ("f4")
 (set_rp_LineNumber (8)%Z
 (set_rp_Offset (7)%Z
 zero_RangePointer)))
 (set_sr_StartPointer (set_rp_FileSPDXIdentifier ("f3")
 (set_rp_LineNumber (6)%Z
 (set_rp_Offset (5)%Z
 zero_RangePointer)))
 zero_SnippetRange)); (set_sr_EndPointer (set_rp_FileSPDXIdentifier ("f14")
 (set_rp_LineNumber (12)%Z
 (set_rp_Offset (11)%Z
 zero_RangePointer)))
 (set_sr_StartPointer (set_rp_FileSPDXIdentifier ("f13")
 (set_rp_LineNumber (10)%Z
 (set_rp_Offset (9)%Z
 zero_RangePointer)))
 zero_SnippetRange))]
 (set_s_FromFile ("file2")
 (set_s_SPDXIdentifier ("id2")
 zero_Snippet))))))))))]
 (set_f_Dependencies [("dep1"); ("dep2"); ("dep3")]
 (set_f_Contributors [("c1"); ("c2")]
 (set_f_Notice ("notice 1")
 (set_f_Comment ("comment 1")
 (set_f_Artifacts [(set_ar_URI ("uri 1")
 (set_ar_HomePage ("home 1")
 (set_ar_Name ("name 1")
 zero_Artifact))); (set_ar_URI ("uri 2")
 (set_ar_HomePage ("home 2")
 (set_ar_Name ("name 2")
 zero_Artifact)))]
 (set_f_CopyrightText ("copy text 1")
 (set_f_LicenseComments ("comments 1")
 (set_f_LicenseInfoInFiles [("f1"); ("f2"); ("f3")]
 (set_f_LicenseConcluded ("license concluded 1")
 (set_f_Checksums [(set_ck_Value ("val 1")
 (set_ck_Algorithm ("alg 1")
 zero_Checksum)); (set_ck_Value ("val 2")
 (set_ck_Algorithm ("alg 2")
 zero_Checksum))]
 (set_f_FileTypes [("a"); ("b")]
 (set_f_SPDXIdentifier ("id 1")
 (set_f_FileName ("file 1")
 zero_FileOf)))))))))))))))]
 (set_p_ExternalReferences [(set_er_Comment ("comment 1")
 (set_er_Locator ("locator 1")
 (set_er_RefType ("type 1")
 (set_er_Category ("cat 1")
 zero_ExternalRef)))); (set_er_Comment ("comment 2")
 (set_er_Locator ("locator 2")
 (set_er_RefType ("type 2")
 (set_er_Category ("cat 2")
 zero_ExternalRef))))]
 (set_p_Comment ("comment 1")
 (set_p_Description ("description 1")
 (set_p_Summary ("summary 1")
 (set_p_CopyrightText ("copyright text 1")
 (set_p_LicenseComments ("license comments 1")
 (set_p_LicenseDeclared ("license declared 1")
 (set_p_LicenseInfoFromFiles [("a"); ("b")]
 (set_p_LicenseConcluded ("license concluded 1")
 (set_p_SourceInfo ("source info 1")
 (set_p_HomePage ("home page 1")
 (set_p_Checksums [(set_ck_Value ("val 1")
 (set_ck_Algorithm ("alg 1")
 zero_Checksum)); (set_ck_Value ("val 2")
 (set_ck_Algorithm ("alg 2")
 zero_Checksum))]
 (set_p_VerificationCode (Some (set_vc_ExcludedFiles [("a"); ("b")]
 (set_vc_Value ("value 1")
 zero_VerificationCode)))
 (set_p_IsFilesAnalyzedTagPresent true
 (set_p_FilesAnalyzed true
 (set_p_DownloadLocation ("")
 (set_p_Originator None
 (set_p_Supplier None
 (set_p_FileName ("file 1")
 (set_p_Version ("version 1")
 (set_p_SPDXIdentifier ("id 1")
 (set_p_PackageName ("package name 1")
 zero_PackageOf))))))))))))))))))))))))]
 (set_d_CreationInfo (Some (set_ci_CreatorComment ("creator comment")
 (set_ci_Created ("created date")
 (set_ci_Creators [(set_cr_CreatorType ("type 1")
 (set_cr_Creator ("creator 1")
 zero_Creator)); (set_cr_CreatorType ("type 2")
 (set_cr_Creator ("creator 2")
 zero_Creator))]
 (set_ci_LicenseListVersion ("license list version")
 zero_CreationInfo)))))
 (set_d_DocumentComment ("doc comment")
 (set_d_ExternalDocumentReferences [(set_edr_Checksum (set_ck_Value ("value 1")
 (set_ck_Algorithm ("algo 1")
 zero_Checksum))
 (set_edr_URI ("uri 1")
 (set_edr_DocumentRefID ("doc ref id 1")
 zero_ExternalDocumentRef))); (set_edr_Checksum (set_ck_Value ("value 2")
 (set_ck_Algorithm ("algo 2")
 zero_Checksum))
 (set_edr_URI ("uri 2")
 (set_edr_DocumentRefID ("doc ref id 2")
 zero_ExternalDocumentRef)))]
 (set_d_DocumentNamespace ("doc namespace")
 (set_d_DocumentName ("doc name")
 (set_d_SPDXIdentifier ("spdx id")
 (set_d_DataLicense ("data license")
 (set_d_SPDXVersion ("SPDX-2.2")
 zero_DocumentOf))))))))))))))).
Definition conv_expected_1 : Document := (set_d_Reviews [(set_rv_Comment ("comment 1")
 (set_rv_Date ("date 1")
 (set_rv_ReviewerType ("type 1")
 (set_rv_Reviewer ("reviewer 1")
 zero_Review)))); (set_rv_Comment ("comment 2")
 (set_rv_Date ("date 2")
 (set_rv_ReviewerType ("type 2")
 (set_rv_Reviewer ("reviewer 2")
 zero_Review))))]
 (set_d_Snippets [(set_s_Name ("name 1")
 (set_s_Comment ("comment 1")
 (set_s_CopyrightText ("copy 1")
 (set_s_LicenseComments ("license comment 1")
 (set_s_LicenseInfoInSnippet [("a"); ("b")]
 (set_s_LicenseConcluded ("license 1")
 (set_s_Ranges [(set_sr_EndPointer (set_rp_FileSPDXIdentifier ("f2")
 (set_rp_LineNumber (4)%Z
 (set_rp_Offset (3)%Z
 zero_RangePointer)))
 (set_sr_StartPointer (set_rp_FileSPDXIdentifier ("f1")
 (set_rp_LineNumber (2)%Z
 (set_rp_Offset (1)%Z
 zero_RangePointer)))
 zero_SnippetRange)); (set_sr_EndPointer (set_rp_FileSPDXIdentifier ("f4")
 (set_rp_LineNumber (8)%Z
 (set_rp_Offset (7)%Z
 zero_RangePointer)))
 (set_sr_StartPointer (set_rp_FileSPDXIdentifier ("f3")
 (set_rp_LineNumber (6)%Z
 (set_rp_Offset (5)%Z
 zero_RangePointer)))
 zero_SnippetRange))]
 (set_s_FromFile ("file1")
 (set_s_SPDXIdentifier ("id1")
 zero_Snippet))))))))); (set_s_Name ("name 1")
 (set_s_Comment ("comment 1")
 (set_s_CopyrightText ("copy 1")
 (set_s_LicenseComments ("license comment 1")
 (set_s_LicenseInfoInSnippet [("a"); ("b")]
 (set_s_LicenseConcluded ("license 1")
 (set_s_Ranges [(set_sr_EndPointer (set_rp_FileSPDXIdentifier ("f4")
 (set_rp_LineNumber (8)%Z
 (set_rp_Offset (7)%Z
 zero_RangePointer)))
 (set_sr_StartPointer (set_rp_FileSPDXIdentifier ("f3")
 (set_rp_LineNumber (6)%Z
 (set_rp_Offset (5)%Z
 zero_RangePointer)))
 zero_SnippetRange)); (set_sr_EndPointer (set_rp_FileSPDXIdentifier ("f14")
 (set_rp_LineNumber (12)%Z
 (set_rp_Offset (11)%Z
 zero_RangePointer)))
 (set_sr_StartPointer (set_rp_FileSPDXIdentifier ("f13")
 (set_rp_LineNumber (10)%Z
 (set_rp_Offset (9)%Z
 zero_RangePointer)))
 zero_SnippetRange))]
 (set_s_FromFile ("file2")
 (set_s_SPDXIdentifier ("id2")
 zero_Snippet)))))))))]
 (set_d_Annotations [(set_a_Comment ("comment 1")
 (set_a_SPDXIdentifier (MkDEID "doc 1" "elem 1" "spec 1")
 (set_a_Type ("type 1")
 (set_a_Date ("date 1")
 (set_a_Annotator (set_an_AnnotatorType ("annotator type 1")
 (set_an_Annotator ("annotator 1")
 zero_Annotator))
 zero_Annotation))))); (set_a_Comment ("comment 2")
 (set_a_SPDXIdentifier (MkDEID "doc 2" "elem 2" "spec 2")
 (set_a_Type ("type 2")
 (set_a_Date ("date 2")
 (set_a_Annotator (set_an_AnnotatorType ("annotator type 2")
 (set_an_Annotator ("annotator 2")
 zero_Annotator))
 zero_Annotation)))))]
 (set_d_Relationships [(set_r_Comment ("comment 1")
 (set_r_Relationship ("type 1")
 (set_r_RefB (MkDEID "doc 2" "elem 2" "spec 2")
 (set_r_RefA (MkDEID "doc 1" "elem 1" "spec 1")
 zero_Relationship)))); (set_r_Comment ("comment 2")
 (set_r_Relationship ("type 2")
 (set_r_RefB (MkDEID "doc 4" "elem 4" "spec 4")
 (set_r_RefA (MkDEID "doc 3" "elem 3" "spec 3")
 zero_Relationship))))]
 (set_d_OtherLicenses [(set_ol_Comment ("comment 1")
 (set_ol_CrossReferences [("x1"); ("x2"); ("x3")]
 (set_ol_LicenseName ("name 1")
 (set_ol_ExtractedText ("text 1")
 (set_ol_LicenseIdentifier ("id 1")
 zero_OtherLicense))))); (set_ol_Comment ("comment 2")
 (set_ol_CrossReferences [("x4"); ("x5"); ("x6")]
 (set_ol_LicenseName ("name 2")
 (set_ol_ExtractedText ("text 2")
 (set_ol_LicenseIdentifier ("id 2")
 zero_OtherLicense)))))]
 (set_d_Files [(set_f_Annotations []
 (set_f_Snippets []
 (set_f_Dependencies [("d1"); ("d2"); ("d3"); ("d4")]
 (set_f_Contributors [("c1"); ("c2")]
 (set_f_Notice ("notice 1")
 (set_f_Comment ("comment 1")
 (set_f_Artifacts [(set_ar_URI ("uri 1")
 (set_ar_HomePage ("home 1")
 (set_ar_Name ("name 1")
 zero_Artifact))); (set_ar_URI ("uri 2")
 (set_ar_HomePage ("home 2")
 (set_ar_Name ("name 2")
 zero_Artifact)))]
 (set_f_CopyrightText ("copy 1")
 (set_f_LicenseComments ("comments 1")
 (set_f_LicenseInfoInFiles [("f1"); ("f2"); ("f3")]
 (set_f_LicenseConcluded ("concluded 1")
 (set_f_Checksums [(set_ck_Value ("val 1")
 (set_ck_Algorithm ("alg 1")
 zero_Checksum)); (set_ck_Value ("val 2")
 (set_ck_Algorithm ("alg 2")
 zero_Checksum))]
 (set_f_FileTypes [("t1"); ("t2")]
 (set_f_SPDXIdentifier ("id 1")
 (set_f_FileName ("file 1")
 zero_FileOf))))))))))))))); (set_f_Annotations []
 (set_f_Snippets []
 (set_f_Dependencies [("d1"); ("d2"); ("d3"); ("d4")]
 (set_f_Contributors [("c1"); ("c2")]
 (set_f_Notice ("notice 2")
 (set_f_Comment ("comment 2")
 (set_f_Artifacts [(set_ar_URI ("uri 2")
 (set_ar_HomePage ("home 2")
 (set_ar_Name ("name 2")
 zero_Artifact))); (set_ar_URI ("uri 4")
 (set_ar_HomePage ("home 4")
 (set_ar_Name ("name 4")
 zero_Artifact)))]
 (set_f_CopyrightText ("copy 2")
 (set_f_LicenseComments ("comments 2")
 (set_f_LicenseInfoInFiles [("f1"); ("f2"); ("f3")]
 (set_f_LicenseConcluded ("concluded 2")
 (set_f_Checksums [(set_ck_Value ("val 2")
 (set_ck_Algorithm ("alg 2")
 zero_Checksum)); (set_ck_Value ("val 3")
 (set_ck_Algorithm ("alg 3")
 zero_Checksum))]
 (set_f_FileTypes [("t3"); ("t4")]
 (set_f_SPDXIdentifier ("id 2")
 (set_f_FileName ("file 2")
 zero_FileOf)))))))))))))))]
 (set_d_Packages [(set_p_Annotations [(set_a_Comment ("comment 1")
 (set_a_SPDXIdentifier (MkDEID "doc 1" "elem 1" "spec 1")
 (set_a_Type ("type 1")
 (set_a_Date ("date 1")
 (set_a_Annotator (set_an_AnnotatorType ("typ 1")
 (set_an_Annotator ("ann 1")
 zero_Annotator))
 zero_Annotation))))); (set_a_Comment ("comment 2")
 (set_a_SPDXIdentifier (MkDEID "doc 2" "elem 2" "spec 2")
 (set_a_Type ("type 2")
 (set_a_Date ("date 2")
 (set_a_Annotator (set_an_AnnotatorType ("typ 2")
 (set_an_Annotator ("ann 2")
 zero_Annotator))
 zero_Annotation)))))]
 (set_p_Files [(set_f_Annotations [(set_a_Comment ("comment 1")
 (set_a_SPDXIdentifier (MkDEID "doc 1" "elem 1" "spec 1")
 (set_a_Type ("type 1")
 (set_a_Date ("date 1")
 (set_a_Annotator (set_an_AnnotatorType ("typ 1")
 (set_an_Annotator ("ann 1")
 zero_Annotator))
 zero_Annotation))))); (set_a_Comment ("comment 2")
 (set_a_SPDXIdentifier (MkDEID "doc 2" "elem 2" "spec 2")
 (set_a_Type ("type 2")
 (set_a_Date ("date 2")
 (set_a_Annotator (set_an_AnnotatorType ("typ 2")
 (set_an_Annotator ("ann 2")
 zero_Annotator))
 zero_Annotation)))))]
 (set_f_Snippets [("e1", (set_s_Name ("name 1")
 (set_s_Comment ("comment 1")
 (set_s_CopyrightText ("copy 1")
 (set_s_LicenseComments ("license comment 1")
 (set_s_LicenseInfoInSnippet [("a"); ("b")]
 (set_s_LicenseConcluded ("license 1")
 (set_s_Ranges [(set_sr_EndPointer (set_rp_FileSPDXIdentifier ("f2")
 (set_rp_LineNumber (4)%Z
 (set_rp_Offset (3)%Z
 zero_RangePointer)))
 (set_sr_StartPointer (set_rp_FileSPDXIdentifier ("f1")
 (set_rp_LineNumber (2)%Z
 (set_rp_Offset (1)%Z
 zero_RangePointer)))
 zero_SnippetRange)); (set_sr_EndPointer (set_rp_FileSPDXIdentifier ("f4")
 (set_rp_LineNumber (8)%Z
 (set_rp_Offset (7)%Z
 zero_RangePointer)))
 (set_sr_StartPointer (set_rp_FileSPDXIdentifier ("f3")
 (set_rp_LineNumber (6)%Z
 (set_rp_Offset (5)%Z
 zero_RangePointer)))
 zero_SnippetRange))]
 (set_s_FromFile ("file1")
 (set_s_SPDXIdentifier ("id1")
 zero_Snippet)))))))))); ("e2", (set_s_Name ("name 1")
 (set_s_Comment ("comment 1")
 (set_s_CopyrightText ("copy 1")
 (set_s_LicenseComments ("license comment 1")
 (set_s_LicenseInfoInSnippet [("a"); ("b")]
 (set_s_LicenseConcluded ("license 1")
 (set_s_Ranges [(set_sr_EndPointer (set_rp_FileSPDXIdentifier ("f4")
 (set_rp_LineNumber (8)%Z
 (set_rp_Offset (7)%Z
 zero_RangePointer)))
 (set_sr_StartPointer (set_rp_FileSPDXIdentifier ("f3")
 (set_rp_LineNumber (6)%Z
 (set_rp_Offset (5)%Z
 zero_RangePointer)))
 zero_SnippetRange)); (set_sr_EndPointer (set_rp_FileSPDXIdentifier ("f14")
 (set_rp_LineNumber (12)%Z
 (set_rp_Offset (11)%Z
 zero_RangePointer)))
 (set_sr_StartPointer (set_rp_FileSPDXIdentifier ("f13")
 (set_rp_LineNumber (10)%Z
 (set_rp_Offset (9)%Z
 zero_RangePointer)))
 zero_SnippetRange))]
 (set_s_FromFile ("file2")
 (set_s_SPDXIdentifier ("id2")
 zero_Snippet))))))))))]
 (set_f_Dependencies [("dep1"); ("dep2"); ("dep3")]
 (set_f_Contributors [("c1"); ("c2")]
 (set_f_Notice ("notice 1")
 (set_f_Comment ("comment 1")
 (set_f_Artifacts [(set_ar_URI ("uri 1")
 (set_ar_HomePage ("home 1")
 (set_ar_Name ("name 1")
 zero_Artifact))); (set_ar_URI ("uri 2")
 (set_ar_HomePage ("home 2")
 (set_ar_Name ("name 2")
 zero_Artifact)))]
 (set_f_CopyrightText ("copy text 1")
 (set_f_LicenseComments ("comments 1")
 (set_f_LicenseInfoInFiles [("f1"); ("f2"); ("f3")]
 (set_f_LicenseConcluded ("license concluded 1")
 (set_f_Checksums [(set_ck_Value ("val 1")
 (set_ck_Algorithm ("alg 1")
 zero_Checksum)); (set_ck_Value ("val 2")
 (set_ck_Algorithm ("alg 2")
 zero_Checksum))]
 (set_f_FileTypes [("a"); ("b")]
 (set_f_SPDXIdentifier ("id 1")
 (set_f_FileName ("file 1")
 zero_FileOf)))))))))))))))]
 (set_p_ExternalReferences [(set_er_Comment ("comment 1")
 (set_er_Locator ("locator 1")
 (set_er_RefType ("type 1")
 (set_er_Category ("cat 1")
 zero_ExternalRef)))); (set_er_Comment ("comment 2")
 (set_er_Locator ("locator 2")
 (set_er_RefType ("type 2")
 (set_er_Category ("cat 2")
 zero_ExternalRef))))]
 (set_p_Comment ("comment 1")
 (set_p_Description ("description 1")
 (set_p_Summary ("summary 1")
 (set_p_CopyrightText ("copyright text 1")
 (set_p_LicenseComments ("license comments 1")
 (set_p_LicenseDeclared ("license declared 1")
 (set_p_LicenseInfoFromFiles [("a"); ("b")]
 (set_p_LicenseConcluded ("license concluded 1")
 (set_p_SourceInfo ("source info 1")
 (set_p_HomePage ("home page 1")
 (set_p_Checksums [(set_ck_Value ("val 1")
 (set_ck_Algorithm ("alg 1")
 zero_Checksum)); (set_ck_Value ("val 2")
 (set_ck_Algorithm ("alg 2")
 zero_Checksum))]
 (set_p_VerificationCode (Some (set_vc_ExcludedFiles [("a"); ("b")]
 (set_vc_Value ("value 1")
 zero_VerificationCode)))
 (set_p_IsFilesAnalyzedTagPresent true
 (set_p_FilesAnalyzed true
 (set_p_DownloadLocation ("")
 (set_p_Originator None
 (set_p_Supplier None
 (set_p_FileName ("file 1")
 (set_p_Version ("version 1")
 (set_p_SPDXIdentifier ("id 1")
 (set_p_PackageName ("package name 1")
 zero_PackageOf))))))))))))))))))))))))]
 (set_d_CreationInfo (Some (set_ci_CreatorComment ("creator comment")
 (set_ci_Created ("created date")
 (set_ci_Creators [(set_cr_CreatorType ("type 1")
 (set_cr_Creator ("creator 1")
 zero_Creator)); (set_cr_CreatorType ("type 2")
 (set_cr_Creator ("creator 2")
 zero_Creator))]
 (set_ci_LicenseListVersion ("license list version")
 zero_CreationInfo)))))
 (set_d_DocumentComment ("doc comment")
 (set_d_ExternalDocumentReferences [(set_edr_Checksum (set_ck_Value ("value 1")
 (set_ck_Algorithm ("algo 1")
 zero_Checksum))
 (set_edr_URI ("uri 1")
 (set_edr_DocumentRefID ("doc ref id 1")
 zero_ExternalDocumentRef))); (set_edr_Checksum (set_ck_Value ("value 2")
 (set_ck_Algorithm ("algo 2")
 zero_Checksum))
 (set_edr_URI ("uri 2")
 (set_edr_DocumentRefID ("doc ref id 2")
 zero_ExternalDocumentRef)))]
 (set_d_DocumentNamespace ("doc namespace")
 (set_d_DocumentName ("doc name")
 (set_d_SPDXIdentifier ("spdx id")
 (set_d_DataLicense ("data license")
 (set_d_SPDXVersion ("SPDX-2.3")
 zero_DocumentOf))))))))))))))).
(** /repo/convert/spdx_document_conversion_test.go 74: full 2.1 -> 2.3 document *)
Example convert_1 : map (fun dz => convert_document dz V21 V23 (go_document V21 conv_source_1)) [true; false] = [Ok (go_document V23 conv_expected_1); Ok (go_document V23 conv_expected_1)].
Proof. vm_compute. reflexivity. Qed.
Definition conv_source_2 : Document := (set_d_Reviews [(set_rv_Comment ("comment 1")
 (set_rv_Date ("date 1")
 (set_rv_ReviewerType ("type 1")
 (set_rv_Reviewer ("reviewer 1")
 zero_Review)))); (set_rv_Comment ("comment 2")
 (set_rv_Date ("date 2")
 (set_rv_ReviewerType ("type 2")
 (set_rv_Reviewer ("reviewer 2")
 zero_Review))))]
 (set_d_Snippets [(set_s_AttributionTexts [("att1"); ("att2"); ("att3")]
 (set_s_Name ("name 1")
 (set_s_Comment ("comment 1")
 (set_s_CopyrightText ("copy 1")
 (set_s_LicenseComments ("license comment 1")
 (set_s_LicenseInfoInSnippet [("a"); ("b")]
 (set_s_LicenseConcluded ("license 1")
 (set_s_Ranges [(set_sr_EndPointer (set_rp_FileSPDXIdentifier ("f2")
 (set_rp_LineNumber (4)%Z
 (set_rp_Offset (3)%Z
 zero_RangePointer)))
 (set_sr_StartPointer (set_rp_FileSPDXIdentifier ("f1")
 (set_rp_LineNumber (2)%Z
 (set_rp_Offset (1)%Z
 zero_RangePointer)))
 zero_SnippetRange)); (set_sr_EndPointer (set_rp_FileSPDXIdentifier ("f4")
 (set_rp_LineNumber (8)%Z
 (set_rp_Offset (7)%Z
 zero_RangePointer)))
 (set_sr_StartPointer (set_rp_FileSPDXIdentifier ("f3")
 (set_rp_LineNumber (6)%Z
 (set_rp_Offset (5)%Z
 zero_RangePointer)))
 zero_SnippetRange))]
 (set_s_FromFile ("file1")
 (set_s_SPDXIdentifier ("id1")
 zero_Snippet)))))))))); (set_s_AttributionTexts [("att1"); ("att2"); ("att3")]
 (set_s_Name ("name 1")
 (set_s_Comment ("comment 1")
 (set_s_CopyrightText ("copy 1")
 (set_s_LicenseComments ("license comment 1")
 (set_s_LicenseInfoInSnippet [("a"); ("b")]
 (set_s_LicenseConcluded ("license 1")
 (set_s_Ranges [(set_sr_EndPointer (set_rp_FileSPDXIdentifier ("f4")
 (set_rp_LineNumber (8)%Z
 (set_rp_Offset (7)%Z
 zero_RangePointer)))
 (set_sr_StartPointer (set_rp_FileSPDXIdentifier ("f3")
 (set_rp_LineNumber (6)%Z
 (set_rp_Offset (5)%Z
 zero_RangePointer)))
 zero_SnippetRange)); (set_sr_EndPointer (set_rp_FileSPDXIdentifier ("f14")
 (set_rp_LineNumber (12)%Z
 (set_rp_Offset (11)%Z
 zero_RangePointer)))
 (set_sr_StartPointer (set_rp_FileSPDXIdentifier ("f13")
 (set_rp_LineNumber (10)%Z
 (set_rp_Offset (9)%Z
 zero_RangePointer)))
 zero_SnippetRange))]
 (set_s_FromFile ("file2")
 (set_s_SPDXIdentifier ("id2")
 zero_Snippet))))))))))]
 (set_d_Annotations [(set_a_Comment ("comment 1")
 (set_a_SPDXIdentifier (MkDEID "doc 1" "elem 1" "spec 1")
 (set_a_Type ("type 1")
 (set_a_Date ("date 1")
 (set_a_Annotator (set_an_AnnotatorType ("annotator type 1")
 (set_an_Annotator ("annotator 1")
 zero_Annotator))
 zero_Annotation))))); (set_a_Comment ("comment 2")
 (set_a_SPDXIdentifier (MkDEID "doc 2" "elem 2" "spec 2")
 (set_a_Type ("type 2")
 (set_a_Date ("date 2")
 (set_a_Annotator (set_an_AnnotatorType ("annotator type 2")
 (set_an_Annotator ("annotator 2")
 zero_Annotator))
 zero_Annotation)))))]
 (set_d_Relationships [(set_r_Comment ("comment 1")
 (set_r_Relationship ("type 1")
 (set_r_RefB (MkDEID "doc 2" "elem 2" "spec 2")
 (set_r_RefA (MkDEID "doc 1" "elem 1" "spec 1")
 zero_Relationship)))); (set_r_Comment ("comment 2")
 (set_r_Relationship ("type 2")
 (set_r_RefB (MkDEID "doc 4" "elem 4" "spec 4")
 (set_r_RefA (MkDEID "doc 3" "elem 3" "spec 3")
 zero_Relationship))))]
 (set_d_OtherLicenses [(set_ol_Comment ("comment 1")
 (set_ol_CrossReferences [("x1"); ("x2"); ("x3")]
 (set_ol_LicenseName ("name 1")
 (set_ol_ExtractedText ("text 1")
 (set_ol_LicenseIdentifier ("id 1")
 zero_OtherLicense))))); (set_ol_Comment ("comment 2")
 (set_ol_CrossReferences [("x4"); ("x5"); ("x6")]
 (set_ol_LicenseName ("name 2")
 (set_ol_ExtractedText ("text 2")
 (set_ol_LicenseIdentifier ("id 2")
 zero_OtherLicense)))))]
 (set_d_Files [(set_f_Annotations []
 (set_f_Snippets []
 (set_f_Dependencies [("d1"); ("d2"); ("d3"); ("d4")]
 (set_f_AttributionTexts [("att1"); ("att2")]
 (set_f_Contributors [("c1"); ("c2")]
 (set_f_Notice ("notice 1")
 (set_f_Comment ("comment 1")
 (set_f_Artifacts [(set_ar_URI ("uri 1")
 (set_ar_HomePage ("home 1")
 (set_ar_Name ("name 1")
 zero_Artifact))); (set_ar_URI ("uri 2")
 (set_ar_HomePage ("home 2")
 (set_ar_Name ("name 2")
 zero_Artifact)))]
 (set_f_CopyrightText ("copy 1")
 (set_f_LicenseComments ("comments 1")
 (set_f_LicenseInfoInFiles [("f1"); ("f2"); ("f3")]
 (set_f_LicenseConcluded ("concluded 1")
 (set_f_Checksums [(set_ck_Value ("val 1")
 (set_ck_Algorithm ("alg 1")
 zero_Checksum)); (set_ck_Value ("val 2")
 (set_ck_Algorithm ("alg 2")
 zero_Checksum))]
 (set_f_FileTypes [("t1"); ("t2")]
 (set_f_SPDXIdentifier ("id 1")
 (set_f_FileName ("file 1")
 zero_FileOf)))))))))))))))); (set_f_Annotations []
 (set_f_Snippets []
 (set_f_Dependencies [("d1"); ("d2"); ("d3"); ("d4")]
 (set_f_AttributionTexts [("att1"); ("att2")]
 (set_f_Contributors [("c1"); ("c2")]
 (set_f_Notice ("notice 2")
 (set_f_Comment ("comment 2")
 (set_f_Artifacts [(set_ar_URI ("uri 2")
 (set_ar_HomePage ("home 2")
 (set_ar_Name ("name 2")
 zero_Artifact))); (set_ar_URI ("uri 4")
 (set_ar_HomePage ("home 4")
 (set_ar_Name ("name 4")
 zero_Artifact)))]
 (set_f_CopyrightText ("copy 2")
 (set_f_LicenseComments ("comments 2")
 (set_f_LicenseInfoInFiles [("f1"); ("f2"); ("f3")]
 (set_f_LicenseConcluded ("concluded 2")
 (set_f_Checksums [(set_ck_Value ("val 2")
 (set_ck_Algorithm ("alg 2")
 zero_Checksum)); (set_ck_Value ("val 3")
 (set_ck_Algorithm ("alg 3")
 zero_Checksum))]
 (set_f_FileTypes [("t3"); ("t4")]
 (set_f_SPDXIdentifier ("id 2")
 (set_f_FileName ("file 2")
 zero_FileOf))))))))))))))))]
 (set_d_Packages [(set_p_Annotations [(set_a_Comment ("comment 1")
 (set_a_SPDXIdentifier (MkDEID "doc 1" "elem 1" "spec 1")
 (set_a_Type ("type 1")
 (set_a_Date ("date 1")
 (set_a_Annotator (set_an_AnnotatorType ("typ 1")
 (set_an_Annotator ("ann 1")
 zero_Annotator))
 zero_Annotation))))); (set_a_Comment ("comment 2")
 (set_a_SPDXIdentifier (MkDEID "doc 2" "elem 2" "spec 2")
 (set_a_Type ("type 2")
 (set_a_Date ("date 2")
 (set_a_Annotator (set_an_AnnotatorType ("typ 2")
 (set_an_Annotator ("ann 2")
 zero_Annotator))
 zero_Annotation)))))]
 (set_p_Files [(set_f_Annotations [(set_a_Comment ("comment 1")
 (set_a_SPDXIdentifier (MkDEID "doc 1" "elem 1" "spec 1")
 (set_a_Type ("type 1")
 (set_a_Date ("date 1")
 (set_a_Annotator (set_an_AnnotatorType ("typ 1")
 (set_an_Annotator ("ann 1")
 zero_Annotator))
 zero_Annotation))))); (set_a_Comment ("comment 2")
 (set_a_SPDXIdentifier (MkDEID "doc 2" "elem 2" "spec 2")
 (set_a_Type ("type 2")
 (set_a_Date ("date 2")
 (set_a_Annotator (set_an_AnnotatorType ("typ 2")
 (set_an_Annotator ("ann 2")
 zero_Annotator))
 zero_Annotation)))))]
 (set_f_Snippets [("e1", (set_s_AttributionTexts [("att1"); ("att2"); ("att3")]
 (set_s_Name ("name 1")
 (set_s_Comment ("comment 1")
 (set_s_CopyrightText ("copy 1")
 (set_s_LicenseComments ("license comment 1")
 (set_s_LicenseInfoInSnippet [("a"); ("b")]
 (set_s_LicenseConcluded ("license 1")
 (set_s_Ranges [(set_sr_EndPointer (set_rp_FileSPDXIdentifier ("f2")
 (set_rp_LineNumber (4)%Z
 (set_rp_Offset (3)%Z
 zero_RangePointer)))
 (set_sr_StartPointer (set_rp_FileSPDXIdentifier ("f1")
 (set_rp_LineNumber (2)%Z
 (set_rp_Offset (1)%Z
 zero_RangePointer)))
 zero_SnippetRange)); (set_sr_EndPointer (set_rp_FileSPDXIdentifier ("f4")
 (set_rp_LineNumber (8)%Z
 (set_rp_Offset (7)%Z
 zero_RangePointer)))
 (set_sr_StartPointer (set_rp_FileSPDXIdentifier ("f3")
 (set_rp_LineNumber (6)%Z
 (set_rp_Offset (5)%Z
 zero_RangePointer)))
 zero_SnippetRange))]
 (set_s_FromFile ("file1")
 (set_s_SPDXIdentifier ("id1")
 zero_Snippet))))))))))); ("e2", (set_s_AttributionTexts [("att1"); ("att2"); ("att3")]
 (set_s_Name ("name 1")
 (set_s_Comment ("comment 1")
 (set_s_CopyrightText ("copy 1")
 (set_s_LicenseComments ("license comment 1")
 (set_s_LicenseInfoInSnippet [("a"); ("b")]
 (set_s_LicenseConcluded ("license 1")
 (set_s_Ranges [(set_sr_EndPointer (set_rp_FileSPDXIdentifier ("f4")
 (set_rp_LineNumber (8)%Z
 (set_rp_Offset (7)%Z
 zero_RangePointer)))
 (set_sr_StartPointer (set_rp_FileSPDXIdentifier ("f3")
 (set_rp_LineNumber (6)%Z
 (set_rp_Offset (5)%Z
 zero_RangePointer)))
 zero_SnippetRange)); (set_sr_EndPointer (set_rp_FileSPDXIdentifier ("f14")
 (set_rp_LineNumber (12)%Z
 (set_rp_Offset (11)%Z
 zero_RangePointer)))
 (set_sr_StartPointer (set_rp_FileSPDXIdentifier ("f13")
 (set_rp_LineNumber (10)%Z
 (set_rp_Offset (9)%Z
 zero_RangePointer)))
 zero_SnippetRange))]
 (set_s_FromFile ("file2")
 (set_s_SPDXIdentifier ("id2")
 zero_Snippet)))))))))))]
 (set_f_Dependencies [("dep1"); ("dep2"); ("dep3")]
 (set_f_AttributionTexts [("att1"); ("att2")]
 (set_f_Contributors [("c1"); ("c2")]
 (set_f_Notice ("notice 1")
 (set_f_Comment ("comment 1")
 (set_f_Artifacts [(set_ar_URI ("uri 1")
 (set_ar_HomePage ("home 1")
 (set_ar_Name ("name 1")
 zero_Artifact))); (set_ar_URI ("uri 2")
 (set_ar_HomePage ("home 2")
 (set_ar_Name ("name 2")
 zero_Artifact)))]
 (set_f_CopyrightText ("copy text 1")
 (set_f_LicenseComments ("comments 1")
 (set_f_LicenseInfoInFiles [("f1"); ("f2"); ("f3")]
 (set_f_LicenseConcluded ("license concluded 1")
 (set_f_Checksums [(set_ck_Value ("val 1")
 (set_ck_Algorithm ("alg 1")
 zero_Checksum)); (set_ck_Value ("val 2")
 (set_ck_Algorithm ("alg 2")
 zero_Checksum))]
 (set_f_FileTypes [("a"); ("b")]
 (set_f_SPDXIdentifier ("id 1")
 (set_f_FileName ("file 1")
 zero_FileOf))))))))))))))))]
 (set_p_AttributionTexts [("a"); ("b"); ("c")]
 (set_p_ExternalReferences [(set_er_Comment ("comment 1")
 (set_er_Locator ("locator 1")
 (set_er_RefType ("type 1")
 (set_er_Category ("cat 1")
 zero_ExternalRef)))); (set_er_Comment ("comment 2")
 (set_er_Locator ("locator 2")
 (set_er_RefType ("type 2")
 (set_er_Category ("cat 2")
 zero_ExternalRef))))]
 (set_p_Comment ("comment 1")
 (set_p_Description ("description 1")
 (set_p_Summary ("summary 1")
 (set_p_CopyrightText ("copyright text 1")
 (set_p_LicenseComments ("license comments 1")
 (set_p_LicenseDeclared ("license declared 1")
 (set_p_LicenseInfoFromFiles [("a"); ("b")]
 (set_p_LicenseConcluded ("license concluded 1")
 (set_p_SourceInfo ("source info 1")
 (set_p_HomePage ("home page 1")
 (set_p_Checksums [(set_ck_Value ("val 1")
 (set_ck_Algorithm ("alg 1")
 zero_Checksum)); (set_ck_Value ("val 2")
 (set_ck_Algorithm ("alg 2")
 zero_Checksum))]
 (set_p_VerificationCode (Some (set_vc_ExcludedFiles [("a"); ("b")]
 (set_vc_Value ("value 1")
 zero_VerificationCode)))
 (set_p_IsFilesAnalyzedTagPresent true
 (set_p_FilesAnalyzed true
 (set_p_DownloadLocation ("")
 (set_p_Originator None
 (set_p_Supplier None
 (set_p_FileName ("file 1")
 (set_p_Version ("version 1")
 (set_p_SPDXIdentifier ("id 1")
 (set_p_PackageName ("package name 1")
 zero_PackageOf)))))))))))))))))))))))))]
 (set_d_CreationInfo (Some (set_ci_CreatorComment ("creator comment")
 (set_ci_Created ("created date")
 (set_ci_Creators [(set_cr_CreatorType ("type 1")
 (set_cr_Creator ("creator 1")
 zero_Creator)); (set_cr_CreatorType ("type 2")
 (set_cr_Creator ("creator 2")
 zero_Creator))]
 (set_ci_LicenseListVersion ("license list version")
 zero_CreationInfo)))))
 (set_d_DocumentComment ("doc comment")
 (set_d_ExternalDocumentReferences [(set_edr_Checksum (set_ck_Value ("value 1")
 (set_ck_Algorithm ("algo 1")
 zero_Checksum))
 (set_edr_URI ("uri 1")
 (set_edr_DocumentRefID ("doc ref id 1")
 zero_ExternalDocumentRef))); (set_edr_Checksum (set_ck_Value ("value 2")
 (set_ck_Algorithm ("algo 2")
 zero_Checksum))
 (set_edr_URI ("uri 2")
 (set_edr_DocumentRefID ("doc ref id 2")
 zero_ExternalDocumentRef)))]
 (set_d_DocumentNamespace ("doc namespace")
 (set_d_DocumentName ("doc name")
 (set_d_SPDXIdentifier ("spdx id")
 (set_d_DataLicense ("data license")
 (set_d_SPDXVersion ("SPDX-2.2")
 zero_DocumentOf))))))))))))))).
Definition conv_expected_2 : Document := (set_d_Reviews [(set_rv_Comment ("comment 1")
 (set_rv_Date ("date 1")
 (set_rv_ReviewerType ("type 1")
 (set_rv_Reviewer ("reviewer 1")
 zero_Review)))); (set_rv_Comment ("comment 2")
 (set_rv_Date ("date 2")
 (set_rv_ReviewerType ("type 2")
 (set_rv_Reviewer ("reviewer 2")
 zero_Review))))]
 (set_d_Snippets [(set_s_AttributionTexts [("att1"); ("att2"); ("att3")]
 (set_s_Name ("name 1")
 (set_s_Comment ("comment 1")
 (set_s_CopyrightText ("copy 1")
 (set_s_LicenseComments ("license comment 1")
 (set_s_LicenseInfoInSnippet [("a"); ("b")]
 (set_s_LicenseConcluded ("license 1")
 (set_s_Ranges [(set_sr_EndPointer (set_rp_FileSPDXIdentifier ("f2")
 (set_rp_LineNumber (4)%Z
 (set_rp_Offset (3)%Z
 zero_RangePointer)))
 (set_sr_StartPointer (set_rp_FileSPDXIdentifier ("f1")
 (set_rp_LineNumber (2)%Z
 (set_rp_Offset (1)%Z
 zero_RangePointer)))
 zero_SnippetRange)); (set_sr_EndPointer (set_rp_FileSPDXIdentifier ("f4")
 (set_rp_LineNumber (8)%Z
 (set_rp_Offset (7)%Z
 zero_RangePointer)))
 (set_sr_StartPointer (set_rp_FileSPDXIdentifier ("f3")
 (set_rp_LineNumber (6)%Z
 (set_rp_Offset (5)%Z
 zero_RangePointer)))
 zero_SnippetRange))]
 (set_s_FromFile ("file1")
 (set_s_SPDXIdentifier ("id1")
 zero_Snippet)))))))))); (set_s_AttributionTexts [("att1"); ("att2"); ("att3")]
 (set_s_Name ("name 1")
 (set_s_Comment ("comment 1")
 (set_s_CopyrightText ("copy 1")
 (set_s_LicenseComments ("license comment 1")
 (set_s_LicenseInfoInSnippet [("a"); ("b")]
 (set_s_LicenseConcluded ("license 1")
 (set_s_Ranges [(set_sr_EndPointer (set_rp_FileSPDXIdentifier ("f4")
 (set_rp_LineNumber (8)%Z
 (set_rp_Offset (7)%Z
 zero_RangePointer)))
 (set_sr_StartPointer (set_rp_FileSPDXIdentifier ("f3")
 (set_rp_LineNumber (6)%Z
 (set_rp_Offset (5)%Z
 zero_RangePointer)))
 zero_SnippetRange)); (set_sr_EndPointer (set_rp_FileSPDXIdentifier ("f14")
 (set_rp_LineNumber (12)%Z
 (set_rp_Offset (11)%Z
 zero_RangePointer)))
 (set_sr_StartPointer (set_rp_FileSPDXIdentifier ("f13")
 (set_rp_LineNumber (10)%Z
 (set_rp_Offset (9)%Z
 zero_RangePointer)))
 zero_SnippetRange))]
 (set_s_FromFile ("file2")
 (set_s_SPDXIdentifier ("id2")
 zero_Snippet))))))))))]
 (set_d_Annotations [(set_a_Comment ("comment 1")
 (set_a_SPDXIdentifier (MkDEID "doc 1" "elem 1" "spec 1")
 (set_a_Type ("type 1")
 (set_a_Date ("date 1")
 (set_a_Annotator (set_an_AnnotatorType ("annotator type 1")
 (set_an_Annotator ("annotator 1")
 zero_Annotator))
 zero_Annotation))))); (set_a_Comment ("comment 2")
 (set_a_SPDXIdentifier (MkDEID "doc 2" "elem 2" "spec 2")
 (set_a_Type ("type 2")
 (set_a_Date ("date 2")
 (set_a_Annotator (set_an_AnnotatorType ("annotator type 2")
 (set_an_Annotator ("annotator 2")
 zero_Annotator))
 zero_Annotation)))))]
 (set_d_Relationships [(set_r_Comment ("comment 1")
 (set_r_Relationship ("type 1")
 (set_r_RefB (MkDEID "doc 2" "elem 2" "spec 2")
 (set_r_RefA (MkDEID "doc 1" "elem 1" "spec 1")
 zero_Relationship)))); (set_r_Comment ("comment 2")
 (set_r_Relationship ("type 2")
 (set_r_RefB (MkDEID "doc 4" "elem 4" "spec 4")
 (set_r_RefA (MkDEID "doc 3" "elem 3" "spec 3")
 zero_Relationship))))]
 (set_d_OtherLicenses [(set_ol_Comment ("comment 1")
 (set_ol_CrossReferences [("x1"); ("x2"); ("x3")]
 (set_ol_LicenseName ("name 1")
 (set_ol_ExtractedText ("text 1")
 (set_ol_LicenseIdentifier ("id 1")
 zero_OtherLicense))))); (set_ol_Comment ("comment 2")
 (set_ol_CrossReferences [("x4"); ("x5"); ("x6")]
 (set_ol_LicenseName ("name 2")
 (set_ol_ExtractedText ("text 2")
 (set_ol_LicenseIdentifier ("id 2")
 zero_OtherLicense)))))]
 (set_d_Files [(set_f_Annotations []
 (set_f_Snippets []
 (set_f_Dependencies [("d1"); ("d2"); ("d3"); ("d4")]
 (set_f_AttributionTexts [("att1"); ("att2")]
 (set_f_Contributors [("c1"); ("c2")]
 (set_f_Notice ("notice 1")
 (set_f_Comment ("comment 1")
 (set_f_Artifacts [(set_ar_URI ("uri 1")
 (set_ar_HomePage ("home 1")
 (set_ar_Name ("name 1")
 zero_Artifact))); (set_ar_URI ("uri 2")
 (set_ar_HomePage ("home 2")
 (set_ar_Name ("name 2")
 zero_Artifact)))]
 (set_f_CopyrightText ("copy 1")
 (set_f_LicenseComments ("comments 1")
 (set_f_LicenseInfoInFiles [("f1"); ("f2"); ("f3")]
 (set_f_LicenseConcluded ("concluded 1")
 (set_f_Checksums [(set_ck_Value ("val 1")
 (set_ck_Algorithm ("alg 1")
 zero_Checksum)); (set_ck_Value ("val 2")
 (set_ck_Algorithm ("alg 2")
 zero_Checksum))]
 (set_f_FileTypes [("t1"); ("t2")]
 (set_f_SPDXIdentifier ("id 1")
 (set_f_FileName ("file 1")
 zero_FileOf)))))))))))))))); (set_f_Annotations []
 (set_f_Snippets []
 (set_f_Dependencies [("d1"); ("d2"); ("d3"); ("d4")]
 (set_f_AttributionTexts [("att1"); ("att2")]
 (set_f_Contributors [("c1"); ("c2")]
 (set_f_Notice ("notice 2")
 (set_f_Comment ("comment 2")
 (set_f_Artifacts [(set_ar_URI ("uri 2")
 (set_ar_HomePage ("home 2")
 (set_ar_Name ("name 2")
 zero_Artifact))); (set_ar_URI ("uri 4")
 (set_ar_HomePage ("home 4")
 (set_ar_Name ("name 4")
 zero_Artifact)))]
 (set_f_CopyrightText ("copy 2")
 (set_f_LicenseComments ("comments 2")
 (set_f_LicenseInfoInFiles [("f1"); ("f2"); ("f3")]
 (set_f_LicenseConcluded ("concluded 2")
 (set_f_Checksums [(set_ck_Value ("val 2")
 (set_ck_Algorithm ("alg 2")
 zero_Checksum)); (set_ck_Value ("val 3")
 (set_ck_Algorithm ("alg 3")
 zero_Checksum))]
 (set_f_FileTypes [("t3"); ("t4")]
 (set_f_SPDXIdentifier ("id 2")
 (set_f_FileName ("file 2")
 zero_FileOf))))))))))))))))]
 (set_d_Packages [(set_p_Annotations [(set_a_Comment ("comment 1")
 (set_a_SPDXIdentifier (MkDEID "doc 1" "elem 1" "spec 1")
 (set_a_Type ("type 1")
 (set_a_Date ("date 1")
 (set_a_Annotator (set_an_AnnotatorType ("typ 1")
 (set_an_Annotator ("ann 1")
 zero_Annotator))
 zero_Annotation))))); (set_a_Comment ("comment 2")
 (set_a_SPDXIdentifier (MkDEID "doc 2" "elem 2" "spec 2")
 (set_a_Type ("type 2")
 (set_a_Date ("date 2")
 (set_a_Annotator (set_an_AnnotatorType ("typ 2")
 (set_an_Annotator ("ann 2")
 zero_Annotator))
 zero_Annotation)))))]
 (set_p_Files [(set_f_Annotations [(set_a_Comment ("comment 1")
 (set_a_SPDXIdentifier (MkDEID "doc 1" "elem 1" "spec 1")
 (set_a_Type ("type 1")
 (set_a_Date ("date 1")
 (set_a_Annotator (set_an_AnnotatorType ("typ 1")
 (set_an_Annotator ("ann 1")
 zero_Annotator))
 zero_Annotation))))); (set_a_Comment ("comment 2")
 (set_a_SPDXIdentifier (MkDEID "doc 2" "elem 2" "spec 2")
 (set_a_Type ("type 2")
 (set_a_Date ("date 2")
 (set_a_Annotator (set_an_AnnotatorType ("typ 2")
 (set_an_Annotator ("ann 2")
 zero_Annotator))
 zero_Annotation)))))]
 (set_f_Snippets [("e1", (set_s_AttributionTexts [("att1"); ("att2"); ("att3")]
 (set_s_Name ("name 1")
 (set_s_Comment ("comment 1")
 (set_s_CopyrightText ("copy 1")
 (set_s_LicenseComments ("license comment 1")
 (set_s_LicenseInfoInSnippet [("a"); ("b")]
 (set_s_LicenseConcluded ("license 1")
 (set_s_Ranges [(set_sr_EndPointer (set_rp_FileSPDXIdentifier ("f2")
 (set_rp_LineNumber (4)%Z
 (set_rp_Offset (3)%Z
 zero_RangePointer)))
 (set_sr_StartPointer (set_rp_FileSPDXIdentifier ("f1")
 (set_rp_LineNumber (2)%Z
 (set_rp_Offset (1)%Z
 zero_RangePointer)))
 zero_SnippetRange)); (set_sr_EndPointer (set_rp_FileSPDXIdentifier ("f4")
 (set_rp_LineNumber (8)%Z
 (set_rp_Offset (7)%Z
 zero_RangePointer)))
 (set_sr_StartPointer (set_rp_FileSPDXIdentifier ("f3")
 (set_rp_LineNumber (6)%Z
 (set_rp_Offset (5)%Z
 zero_RangePointer)))
 zero_SnippetRange))]
 (set_s_FromFile ("file1")
 (set_s_SPDXIdentifier ("id1")
 zero_Snippet))))))))))); ("e2", (set_s_AttributionTexts [("att1"); ("att2"); ("att3")]
 (set_s_Name ("name 1")
 (set_s_Comment ("comment 1")
 (set_s_CopyrightText ("copy 1")
 (set_s_LicenseComments ("license comment 1")
 (set_s_LicenseInfoInSnippet [("a"); ("b")]
 (set_s_LicenseConcluded ("license 1")
 (set_s_Ranges [(set_sr_EndPointer (set_rp_FileSPDXIdentifier ("f4")
 (set_rp_LineNumber (8)%Z
 (set_rp_Offset (7)%Z
 zero_RangePointer)))
 (set_sr_StartPointer (set_rp_FileSPDXIdentifier ("f3")
 (set_rp_LineNumber (6)%Z
 (set_rp_Offset (5)%Z
 zero_RangePointer)))
 zero_SnippetRange)); (set_sr_EndPointer (set_rp_FileSPDXIdentifier ("f14")
 (set_rp_LineNumber (12)%Z
 (set_rp_Offset (11)%Z
 zero_RangePointer)))
 (set_sr_StartPointer (set_rp_FileSPDXIdentifier ("f13")
 (set_rp_LineNumber (10)%Z
 (set_rp_Offset (9)%Z
 zero_RangePointer)))
 zero_SnippetRange))]
 (set_s_FromFile ("file2")
 (set_s_SPDXIdentifier ("id2")
 zero_Snippet)))))))))))]
 (set_f_Dependencies [("dep1"); ("dep2"); ("dep3")]
 (set_f_AttributionTexts [("att1"); ("att2")]
 (set_f_Contributors [("c1"); ("c2")]
 (set_f_Notice ("notice 1")
 (set_f_Comment ("comment 1")
 (set_f_Artifacts [(set_ar_URI ("uri 1")
 (set_ar_HomePage ("home 1")
 (set_ar_Name ("name 1")
 zero_Artifact))); (set_ar_URI ("uri 2")
 (set_ar_HomePage ("home 2")
 (set_ar_Name ("name 2")
 zero_Artifact)))]
 (set_f_CopyrightText ("copy text 1")
 (set_f_LicenseComments ("comments 1")
 (set_f_LicenseInfoInFiles [("f1"); ("f2"); ("f3")]
 (set_f_LicenseConcluded ("license concluded 1")
 (set_f_Checksums [(set_ck_Value ("val 1")
 (set_ck_Algorithm ("alg 1")
 zero_Checksum)); (set_ck_Value ("val 2")
 (set_ck_Algorithm ("alg 2")
 zero_Checksum))]
 (set_f_FileTypes [("a"); ("b")]
 (set_f_SPDXIdentifier ("id 1")
 (set_f_FileName ("file 1")
 zero_FileOf))))))))))))))))]
 (set_p_AttributionTexts [("a"); ("b"); ("c")]
 (set_p_ExternalReferences [(set_er_Comment ("comment 1")
 (set_er_Locator ("locator 1")
 (set_er_RefType ("type 1")
 (set_er_Category ("cat 1")
 zero_ExternalRef)))); (set_er_Comment ("comment 2")
 (set_er_Locator ("locator 2")
 (set_er_RefType ("type 2")
 (set_er_Category ("cat 2")
 zero_ExternalRef))))]
 (set_p_Comment ("comment 1")
 (set_p_Description ("description 1")
 (set_p_Summary ("summary 1")
 (set_p_CopyrightText ("copyright text 1")
 (set_p_LicenseComments ("license comments 1")
 (set_p_LicenseDeclared ("license declared 1")
 (set_p_LicenseInfoFromFiles [("a"); ("b")]
 (set_p_LicenseConcluded ("license concluded 1")
 (set_p_SourceInfo ("source info 1")
 (set_p_HomePage ("home page 1")
 (set_p_Checksums [(set_ck_Value ("val 1")
 (set_ck_Algorithm ("alg 1")
 zero_Checksum)); (set_ck_Value ("val 2")
 (set_ck_Algorithm ("alg 2")
 zero_Checksum))]
 (set_p_VerificationCode (Some (set_vc_ExcludedFiles [("a"); ("b")]
 (set_vc_Value ("value 1")
 zero_VerificationCode)))
 (set_p_IsFilesAnalyzedTagPresent true
 (set_p_FilesAnalyzed true
 (set_p_DownloadLocation ("")
 (set_p_Originator None
 (set_p_Supplier None
 (set_p_FileName ("file 1")
 (set_p_Version ("version 1")
 (set_p_SPDXIdentifier ("id 1")
 (set_p_PackageName ("package name 1")
 zero_PackageOf)))))))))))))))))))))))))]
 (set_d_CreationInfo (Some (set_ci_CreatorComment ("creator comment")
 (set_ci_Created ("created date")
 (set_ci_Creators [(set_cr_CreatorType ("type 1")
 (set_cr_Creator ("creator 1")
 zero_Creator)); (set_cr_CreatorType ("type 2")
 (set_cr_Creator ("creator 2")
 zero_Creator))]
 (set_ci_LicenseListVersion ("license list version")
 zero_CreationInfo)))))
 (set_d_DocumentComment ("doc comment")
 (set_d_ExternalDocumentReferences [(set_edr_Checksum (set_ck_Value ("value 1")
 (set_ck_Algorithm ("algo 1")
 zero_Checksum))
 (set_edr_URI ("uri 1")
 (set_edr_DocumentRefID ("doc ref id 1")
 zero_ExternalDocumentRef))); (set_edr_Checksum (set_ck_Value ("value 2")
 (set_ck_Algorithm ("algo 2")
 zero_Checksum))
 (set_edr_URI ("uri 2")
 (set_edr_DocumentRefID ("doc ref id 2")
 zero_ExternalDocumentRef)))]
 (set_d_DocumentNamespace ("doc namespace")
 (set_d_DocumentName ("doc name")
 (set_d_SPDXIdentifier ("spdx id")
 (set_d_DataLicense ("data license")
 (set_d_SPDXVersion ("SPDX-2.3")
 zero_DocumentOf))))))))))))))).
(** /repo/convert/spdx_document_conversion_test.go 1084: full 2.2 -> 2.3 document *)
Example convert_2 : map (fun dz => convert_document dz V22 V23 (go_document V22 conv_source_2)) [true; false] = [Ok (go_document V23 conv_expected_2); Ok (go_document V23 conv_expected_2)].
Proof. vm_compute. reflexivity. Qed.
Definition dec_text {X} (c : codec X) (zero : X) (s : string) : option X := match parse_text (String dquote s ++ String dquote "") with Some j => match dec c j zero with Ok x => Some x | _ => None end | None => None end.
Definition enc_text {X} (c : codec X) (x : X) : option string := match enc c x with Ok j => Some (text j) | _ => None end.
(** /repo/spdx/v2/common/identifier_test.go 15: Test_DocElementIDEncoding *)
Example id_DocElementIDEncoding : [enc_text c_doc_element_id (MkDEID "" "some-id" "");
 enc_text c_doc_element_id (MkDEID "a-doc" "some-id" "");
 enc_text c_doc_element_id (MkDEID "a-doc" "" "");
 enc_text c_doc_element_id (MkDEID "" "" "special-id")] =
 [Some (String dquote "SPDXRef-some-id" ++ String dquote ""); Some (String dquote "DocumentRef-a-doc:SPDXRef-some-id" ++ String dquote ""); None; Some (String dquote "special-id" ++ String dquote "")].
Proof. vm_compute. reflexivity. Qed.
(** /repo/spdx/v2/common/identifier_test.go 76: Test_DocElementIDDecoding *)
Example id_DocElementIDDecoding : [dec_text c_doc_element_id (MkDEID "" "" "") "SPDXRef-some-id";
 dec_text c_doc_element_id (MkDEID "" "" "") "DocumentRef-a-doc:SPDXRef-some-id";
 dec_text c_doc_element_id (MkDEID "" "" "") "DocumentRef-a-doc";
 dec_text c_doc_element_id (MkDEID "" "" "") "DocumentRef-";
 dec_text c_doc_element_id (MkDEID "" "" "") "DocumentRef-a-doc:some-id";
 dec_text c_doc_element_id (MkDEID "" "" "") "DocumentRef-a-doc:SPDXRef-";
 dec_text c_doc_element_id (MkDEID "" "" "") "some-id-without-spdxref";
 dec_text c_doc_element_id (MkDEID "" "" "") "NONE";
 dec_text c_doc_element_id (MkDEID "" "" "") "NOASSERTION"] =
 [Some (MkDEID "" "some-id" ""); Some (MkDEID "a-doc" "some-id" ""); Some (MkDEID "a-doc" "" ""); None; None; None; None; Some (MkDEID "" "" "NONE"); Some (MkDEID "" "" "NOASSERTION")].
Proof. vm_compute. reflexivity. Qed.
(** /repo/spdx/v2/common/identifier_test.go 161: Test_ElementIDEncoding *)
Example id_ElementIDEncoding : [enc_text c_element_id "some-id";
 enc_text c_element_id "SPDXRef-some-id"] =
 [Some (String dquote "SPDXRef-some-id" ++ String dquote ""); Some (String dquote "SPDXRef-some-id" ++ String dquote "")].
Proof. vm_compute. reflexivity. Qed.
(** /repo/spdx/v2/common/identifier_test.go 203: Test_ElementIDDecoding *)
Example id_ElementIDDecoding : [dec_text c_element_id "" "SPDXRef-some-id";
 dec_text c_element_id "" "SPDXRef-";
 dec_text c_element_id "" "some-id-without-spdxref"] =
 [Some "some-id"; None; None].
Proof. vm_compute. reflexivity. Qed.
(** /repo/spdx/v2/common/identifier_test.go 335: Test_DocumentIDEncoding *)
Example id_DocumentIDEncoding : [enc_text c_document_id "some-id";
 enc_text c_document_id "DocumentRef-some-id"] =
 [Some (String dquote "DocumentRef-some-id" ++ String dquote ""); Some (String dquote "DocumentRef-some-id" ++ String dquote "")].
Proof. vm_compute. reflexivity. Qed.
(** /repo/spdx/v2/common/identifier_test.go 377: Test_DocumentIDDecoding *)
Example id_DocumentIDDecoding : [dec_text c_document_id "" "DocumentRef-some-id";
 dec_text c_document_id "" "DocumentRef-";
 dec_text c_document_id "" "some-id-without-documentref"] =
 [Some "some-id"; None; None].
Proof. vm_compute. reflexivity. Qed.
(** /repo/spdx/v2/common/package_test.go 5: TestOriginator_UnmarshalJSON *)
Example originator_read : map (fun t => match parse_text t with Some j => match dec c_originator j (MkOriginator "" "") with Ok _ => false | _ => true end | None => true end) ["""Person: John Doe"""; """Person:John Doe"""; """Organization:SPDX"""; """Organization: ExampleCodeInspect (contact@example.com)"""; """John Doe"""] =
 [false; false; false; false; true].
Proof. vm_compute. reflexivity. Qed.
(** /repo/spdx/v2/common/package_test.go 49: TestOriginator_MarshalJSON *)
Example originator_write : map (fun o => match enc c_originator o with Ok _ => false | _ => true end) [MkOriginator "John Doe" "Person"; MkOriginator "John Doe" ""; MkOriginator "" "Person"] = [false; true; true].
Proof. vm_compute. reflexivity. Qed.
