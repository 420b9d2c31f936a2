(** Generated by tools/gen_text.py: the text of /repo/assets/PhoneNumberMetadata.xml,
    part A of F, cut after every territory. *)
From Verif Require Import Base.
Local Open Scope bstr_scope.

Definition text_a : list (list bstr) :=
 [[" <!-- Copyright (C) 2009 The Libphonenumber Authors

     Licensed under the Apache License, Version 2.0 (the ""License"");
     you may not use this file except in compliance with the License.
     You may obtain a copy of the License at
     http://www.apache.org/licenses/LICENSE-2.0

     Unless required by applicable law or agreed to in writing, software
     distributed under the License is distributed on an ""AS IS"" BASIS,
     WITHOUT WARRANTIES OR CONDITIONS OF ANY KIND, either express or implied.
     See the License for the specific language governing permissions and
     limitations under the License.

     @author: Shaopeng Jia

     Metadata on Phone Number Plan and formatting rules
     Note: Territories are in alphabetical order by their IDs, which are based on CLDR
           two-letter region codes (or are se";
   "t to ""001"" for non-geographical entities, which
           represents ""World"" in the UN M.49 standard). The country names in the comments are the
           official short names in English according to CLDR.

     For more information on what each element represents, see
     resources/phonemetadata.proto

     Note that if you want to ad";
   "d validation metadata, the generalDesc nationalNumberPattern must be
     provided. If this is missing, then the country will be considered to have no more specific
     phone-number type metadata (fixedLine, mobile etc) and hence only basic validation rules
     (numbers should be between 3 and 15 digits long) will be applied.

     If adding an element for a non-geographical entity, please ad";
   "d an example number element to the
     general description.

     Country code, international and national prefix information main source:
     http://www.itu.int/pub/T-SP-E.164C-2011

     Known omissions:
     * French Southern Territories (id=""TF"" countryCode=""262"")
       This is not covered due to lack of information about its numbering plan. It has 140
       temporary inhabitants.

     * Pitcairn Island (id=""PN"")
       This is not supported since evidence seems to be that the 50 inhabitants use satellite
";
   "       phones.

     See also:
       https://github.com/google/libphonenumber/blob/master/FAQ.md#unsupported
     -->

<!DOCTYPE phoneNumberMetadata [
    <!ELEMENT phoneNumberMetadata (territories)>
    <!ELEMENT territories (territory+)>
    <!ELEMENT territory (references?, availableFormats?, generalDesc, noInternationalDialling?,
        fixedLine?, mobile?, pager?, tollFree?, premiumRate?,
        sharedCost?, personalNumber?, voip?, uan?, voicemail?)>
    <!ELEMENT references (sourceUrl+)>
    <!ELEMENT generalDesc (nationalNumberPattern)>
    <!ELEMENT noInternationalDialling (possibleLengths, nationalNumberPattern)>
    <!ELEMENT fixedLine (possibleLengths, exampleNumber, nationalNumberPattern)>
    <!ELEMENT mobile (possibleLengths, exampleNumber, nationalNumberPattern)>
    <!ELEMENT pager (possibleLengths, exampleNumber, nationalNumberPattern)>
    <!ELEMENT tollFree (possibleLengths, exampleNumber, nationalNumberPattern)>
    <!ELEMENT premiumRate (possibleLengths, exampleNumber, nationalNumberPattern)>
    <!ELEMENT sharedCost (possibleLengths, exampleNumber, nationalNumberPattern)>
    <!ELEMENT personalNumber (possibleLengths, exampleNumber, nationalNumberPattern)>
    <!ELEMENT voip (possibleLengths, exampleNumber, nationalNumberPattern)>
    <!ELEMENT uan (possibleLengths, exampleNumber, nationalNumberPattern)>
    <!ELEMENT voicemail (possibleLengths, exampleNumber, nationalNumberPattern)>
    <!ELEMENT sourceUrl (#PCDATA)>
    <!ELEMENT availableFormats (numberFormat+)>
    <!ELEMENT nationalNumberPattern (#PCDATA)>
    <!ELEMENT exampleNumber (#PCDATA)>
    <!ELEMENT numberFormat (leadingDigits*, format, intlFormat*)>
    <!ELEMENT format (#PCDATA)>
    <!ELEMENT intlFormat (#PCDATA)>
    <!ELEMENT leadingDigits (#PCDATA)>
    <!ELEMENT possibleLengths EMPTY>

    <!ATTLIST territory id CDATA #REQUIRED>
    <!ATTLIST territory countryCode CDATA #REQUIRED>
    <!ATTLIST territory mainCountryForCode (true) #IMPLIED>
    <!ATTLIST territory leadingDigits CDATA #IMPLIED>
";
   "    <!ATTLIST territory preferredInternationalPrefix CDATA #IMPLIED>
    <!ATTLIST territory internationalPrefix CDATA #IMPLIED>
    <!ATTLIST territory nationalPrefix CDATA #IMPLIED>
    <!ATTLIST territory nationalPrefixForParsing CDATA #IMPLIED>
    <!ATTLIST territory nationalPrefixTransformRule CDATA #IMPLIED>
    <!ATTLIST territory preferredExtnPrefix CDATA #IMPLIED>
    <!ATTLIST territory nationalPrefixFormattingRule CDATA #IMPLIED>
    <!ATTLIST territory nationalPrefixOptionalWhenFormatting (true) #IMPLIED>
    <!ATTLIST territory carrierCodeFormattingRule CDATA #IMPLIED>
    <!ATTLIST territory mobileNumberPortableRegion (true) #IMPLIED>
    <!ATTLIST possibleLengths national CDATA #REQUIRED>
    <!ATTLIST possibleLengths localOnly CDATA #IMPLIED>
    <!ATTLIST numberFormat nationalPrefixFormattingRule CDATA #IMPLIED>
    <!ATTLIST numberFormat nationalPrefixOptionalWhenFormatting (true) #IMPLIED>
    <!ATTLIST numberFormat carrierCodeFormattingRule CDATA #IMPLIED>
    <!ATTLIST numberFormat pattern CDATA #REQUIRED>
]>

<phoneNumberMetadata>
  <territories>"];
  ["
    <!-- Ascension Island (AC) -->
    <!-- http://www.itu.int/oth/T02020000AF/en -->
    <territory id=""AC"" countryCode=""247"" internationalPrefix=""00"">
      <generalDesc>
        <nationalNumberPattern>
          (?:
            [01589]\d|
            [46]
          )\d{4}
        </nationalNumberPattern>
      </generalDesc>
      <fixedLine>
        <possibleLengths national=""5""/>
        <exampleNumber>62889</exampleNumber>
        <nationalNumberPattern>6[2-467]\d{3}</nationalNumberPattern>
      </fixedLine>
      <!-- Note prefix 4 is reserved for mobile use , not currently in use -->
      <mobile>
        <possibleLengths national=""5""/>
        <exampleNumber>40123</exampleNumber>
        <nationalNumberPattern>4\d{4}</nationalNumberPattern>
      </mobile>
      <!-- Omit '00' as a prefix since that's the IDD prefix. -->
      <uan>
        <possibleLengths national=""6""/>
        <exampleNumber>542011</exampleNumber>
        <nationalNumberPattern>
          (?:
            0[1-9]|
            [1589]\d
          )\d{4}
        </nationalNumberPattern>
      </uan>
    </territory>"];
  ["

    <!-- Andorra (AD) -->
    <!-- http://www.itu.int/oth/T0202000005/en -->
    <territory id=""AD"" countryCode=""376"" internationalPrefix=""00"">
      <availableFormats>
        <numberFormat pattern=""(\d{3})(\d{3})"">
          <leadingDigits>[135-9]</leadingDigits>
          <format>$1 $2</format>
        </numberFormat>
        <numberFormat pattern=""(\d{4})(\d{4})"">
          <leadingDigits>1</leadingDigits>
          <format>$1 $2</format>
        </numberFormat>
        <numberFormat pattern=""(\d{3})(\d{3})(\d{3})"">
          <leadingDigits>6</leadingDigits>
          <format>$1 $2 $3</format>
        </numberFormat>
      </availableFormats>
      <generalDesc>
        <nationalNumberPattern>
          (?:
            1|
            6\d
          )\d{7}|
          [135-9]\d{5}
        </nationalNumberPattern>
      </generalDesc>
      <noInternationalDialling>
        <possibleLengths national=""8""/>
        <nationalNumberPattern>1800\d{4}</nationalNumberPattern>
      </noInternationalDialling>
      <fixedLine>
        <possibleLengths national=""6""/>
        <exampleNumber>712345</exampleNumber>
        <nationalNumberPattern>[78]\d{5}</nationalNumberPattern>
      </fixedLine>
      <mobile>
        <possibleLengths national=""6,9""/>
        <exampleNumber>312345</exampleNumber>
        <nationalNumberPattern>
          690\d{6}|
          [356]\d{5}
        </nationalNumberPattern>
      </mobile>
      <!-- Note that the definitions of 1800 and 1802 numbers differ in the plan and on the
           Andorran http://www.sta.ad website, but we consider both to be freephone here. -->
      <tollFree>
        <possibleLengths national=""8""/>
        <exampleNumber>18001234</exampleNumber>
        <nationalNumberPattern>180[02]\d{4}</nationalNumberPattern>
      </tollFree>
      <!-- The national numbering plan says that 6-digit numbers beginning with 1 and 9 are reserved
           for special services, so we assume they are premium rate here, although we cannot find
";
   "           examples online. -->
      <premiumRate>
        <possibleLengths national=""6""/>
        <exampleNumber>912345</exampleNumber>
        <nationalNumberPattern>[19]\d{5}</nationalNumberPattern>
      </premiumRate>
    </territory>"];
  ["

    <!-- United Arab Emirates (AE) -->
    <!-- http://www.itu.int/oth/T02020000DC/en -->
    <territory id=""AE"" countryCode=""971"" internationalPrefix=""00"" nationalPrefix=""0"">
      <availableFormats>
        <numberFormat pattern=""(\d{3})(\d{2,9})"">
          <leadingDigits>
            60|
            8
          </leadingDigits>
          <format>$1 $2</format>
        </numberFormat>
        <numberFormat pattern=""(\d)(\d{3})(\d{4})"" nationalPrefixFormattingRule=""$NP$FG"">
          <leadingDigits>
            [236]|
            [479][2-8]
          </leadingDigits>
          <format>$1 $2 $3</format>
        </numberFormat>
        <numberFormat pattern=""(\d{3})(\d)(\d{5})"">
          <leadingDigits>[479]</leadingDigits>
          <format>$1 $2 $3</format>
        </numberFormat>
        <numberFormat pattern=""(\d{2})(\d{3})(\d{4})"" nationalPrefixFormattingRule=""$NP$FG"">
          <leadingDigits>5</leadingDigits>
          <format>$1 $2 $3</format>
        </numberFormat>
      </availableFormats>
      <generalDesc>
        <nationalNumberPattern>
          (?:
            [4-7]\d|
            9[0-689]
          )\d{7}|
          800\d{2,9}|
          [2-4679]\d{7}
        </nationalNumberPattern>
      </generalDesc>
      <fixedLine>
        <possibleLengths national=""8"" localOnly=""7""/>
        <exampleNumber>22345678</exampleNumber>
        <nationalNumberPattern>[2-4679][2-8]\d{6}</nationalNumberPattern>
      </fixedLine>
      <!-- Prefixes 54 and 58 are mentioned on Wikipedia,
           https://en.wikipedia.org/wiki/Telephone_numbers_in_the_United_Arab_Emirates. -->
      <mobile>
        <possibleLengths national=""9""/>
        <exampleNumber>501234567</exampleNumber>
        <nationalNumberPattern>5[02-68]\d{7}</nationalNumberPattern>
      </mobile>
      <tollFree>
        <possibleLengths national=""[5-12]""/>
        <exampleNumber>800123456</exampleNumber>
        <nationalNumberPattern>
          400\d{6}|
          800\d{2,9}
        </nationalNumberPattern>
";
   "      </tollFree>
      <premiumRate>
        <possibleLengths national=""9""/>
        <exampleNumber>900234567</exampleNumber>
        <nationalNumberPattern>900[02]\d{5}</nationalNumberPattern>
      </premiumRate>
      <sharedCost>
        <possibleLengths national=""9""/>
        <exampleNumber>700012345</exampleNumber>
        <nationalNumberPattern>700[05]\d{5}</nationalNumberPattern>
      </sharedCost>
      <uan>
        <possibleLengths national=""9""/>
        <exampleNumber>600212345</exampleNumber>
        <nationalNumberPattern>600[25]\d{5}</nationalNumberPattern>
      </uan>
    </territory>"];
  ["

    <!-- Afghanistan (AF) -->
    <!-- http://www.itu.int/oth/T0202000001/en -->
    <territory id=""AF"" countryCode=""93"" internationalPrefix=""00"" nationalPrefix=""0"">
      <availableFormats>
        <numberFormat pattern=""(\d{3})(\d{4})"">
          <leadingDigits>[1-9]</leadingDigits>
          <format>$1 $2</format>
          <intlFormat>NA</intlFormat>
        </numberFormat>
        <!-- Formatting based primarily on ITU document. -->
        <numberFormat pattern=""(\d{2})(\d{3})(\d{4})"" nationalPrefixFormattingRule=""$NP$FG"">
          <leadingDigits>[2-7]</leadingDigits>
          <format>$1 $2 $3</format>
        </numberFormat>
      </availableFormats>
      <generalDesc>
        <nationalNumberPattern>[2-7]\d{8}</nationalNumberPattern>
      </generalDesc>
      <fixedLine>
        <possibleLengths national=""9"" localOnly=""7""/>
        <exampleNumber>234567890</exampleNumber>
        <nationalNumberPattern>
          (?:
            [25][0-8]|
            [34][0-4]|
            6[0-5]
          )[2-9]\d{6}
        </nationalNumberPattern>
      </fixedLine>
      <!-- 731 range is supported based on user report. -->
      <mobile>
        <possibleLengths national=""9"" localOnly=""7""/>
        <exampleNumber>701234567</exampleNumber>
        <nationalNumberPattern>7\d{8}</nationalNumberPattern>
      </mobile>
    </territory>"];
  ["

    <!-- Antigua & Barbuda (AG) -->
    <!-- Calling code and formatting shared with 'US' -->
    <!-- http://www.itu.int/oth/T0202000008/en -->
    <territory id=""AG"" countryCode=""1"" leadingDigits=""268"" internationalPrefix=""011""
               nationalPrefix=""1"" nationalPrefixForParsing=""([457]\d{6})$|1""
               nationalPrefixTransformRule=""268$1"" mobileNumberPortableRegion=""true"">
      <generalDesc>
        <nationalNumberPattern>
          (?:
            268|
            [58]\d\d|
            900
          )\d{7}
        </nationalNumberPattern>
      </generalDesc>
      <!-- 268 468 is not in the plan, but has been added after numbers with this prefix have been
           found in online searches. -->
      <fixedLine>
        <possibleLengths national=""10"" localOnly=""7""/>
        <exampleNumber>2684601234</exampleNumber>
        <nationalNumberPattern>
          268(?:
            4(?:
              6[0-38]|
              84
            )|
            56[0-2]
          )\d{4}
        </nationalNumberPattern>
      </fixedLine>
      <!-- 268 776/778/779 are not in the plan, but have been added after numbers with these
           prefixes have been found in online searches. Same for 268 782/784/786/789. -->
      <mobile>
        <possibleLengths national=""10"" localOnly=""7""/>
        <exampleNumber>2684641234</exampleNumber>
        <nationalNumberPattern>
          268(?:
            464|
            7(?:
              1[3-9]|
              [28]\d|
              3[0246]|
              64|
              7[0-689]
            )
          )\d{4}
        </nationalNumberPattern>
      </mobile>
      <pager>
        <possibleLengths national=""10"" localOnly=""7""/>
        <exampleNumber>2684061234</exampleNumber>
        <nationalNumberPattern>26840[69]\d{4}</nationalNumberPattern>
      </pager>
      <tollFree>
        <possibleLengths national=""10""/>
        <exampleNumber>8002123456</exampleNumber>
        <nationalNumberPattern>
          8(?:
            00|
";
   "            33|
            44|
            55|
            66|
            77|
            88
          )[2-9]\d{6}
        </nationalNumberPattern>
      </tollFree>
      <premiumRate>
        <possibleLengths national=""10""/>
        <exampleNumber>9002123456</exampleNumber>
        <nationalNumberPattern>900[2-9]\d{6}</nationalNumberPattern>
      </premiumRate>
      <!-- https://www.nationalnanpa.com/number_resource_info/5XX_codes.html -->
      <personalNumber>
        <possibleLengths national=""10""/>
        <exampleNumber>5002345678</exampleNumber>
        <nationalNumberPattern>
          52(?:
            3(?:
              [2-46-9][02-9]\d|
              5(?:
                [02-46-9]\d|
                5[0-46-9]
              )
            )|
            4(?:
              [2-478][02-9]\d|
              5(?:
                [034]\d|
                2[024-9]|
                5[0-46-9]
              )|
              6(?:
                0[1-9]|
                [2-9]\d
              )|
              9(?:
                [05-9]\d|
                2[0-5]|
                49
              )
            )
          )\d{4}|
          52[34][2-9]1[02-9]\d{4}|
          5(?:
            00|
            2[125-9]|
            3[23]|
            44|
            66|
            77|
            88
          )[2-9]\d{6}
        </nationalNumberPattern>
      </personalNumber>
      <!-- This is included as Centrex in the plan. -->
      <voip>
        <possibleLengths national=""10"" localOnly=""7""/>
        <exampleNumber>2684801234</exampleNumber>
        <nationalNumberPattern>26848[01]\d{4}</nationalNumberPattern>
      </voip>
    </territory>"];
  ["

    <!-- Anguilla (AI) -->
    <!-- Calling code and formatting shared with 'US' -->
    <!-- http://www.itu.int/oth/T0202000007/en -->
    <territory id=""AI"" countryCode=""1"" leadingDigits=""264"" internationalPrefix=""011""
               nationalPrefix=""1"" nationalPrefixForParsing=""([2457]\d{6})$|1""
               nationalPrefixTransformRule=""264$1"" mobileNumberPortableRegion=""true"">
      <generalDesc>
        <nationalNumberPattern>
          (?:
            264|
            [58]\d\d|
            900
          )\d{7}
        </nationalNumberPattern>
      </generalDesc>
      <fixedLine>
        <possibleLengths national=""10"" localOnly=""7""/>
        <exampleNumber>2644612345</exampleNumber>
        <nationalNumberPattern>
          264(?:
            292|
            4(?:
              6[12]|
              9[78]
            )
          )\d{4}
        </nationalNumberPattern>
      </fixedLine>
      <mobile>
        <possibleLengths national=""10"" localOnly=""7""/>
        <exampleNumber>2642351234</exampleNumber>
        <nationalNumberPattern>
          264(?:
            235|
            4(?:
              69|
              7[67]
            )|
            5(?:
              3[6-9]|
              8[1-4]
            )|
            7(?:
              29|
              72
            )
          )\d{4}
        </nationalNumberPattern>
      </mobile>
      <pager>
        <possibleLengths national=""10"" localOnly=""7""/>
        <exampleNumber>2647241234</exampleNumber>
        <nationalNumberPattern>264724\d{4}</nationalNumberPattern>
      </pager>
      <tollFree>
        <possibleLengths national=""10""/>
        <exampleNumber>8002123456</exampleNumber>
        <nationalNumberPattern>
          8(?:
            00|
            33|
            44|
            55|
            66|
            77|
            88
          )[2-9]\d{6}
        </nationalNumberPattern>
      </tollFree>
      <premiumRate>
        <possibleLengths national=""10""/>
        <exampleNumber>9002123456</exampleNumber>
";
   "        <nationalNumberPattern>900[2-9]\d{6}</nationalNumberPattern>
      </premiumRate>
      <!-- https://www.nationalnanpa.com/number_resource_info/5XX_codes.html -->
      <personalNumber>
        <possibleLengths national=""10""/>
        <exampleNumber>5002345678</exampleNumber>
        <nationalNumberPattern>
          52(?:
            3(?:
              [2-46-9][02-9]\d|
              5(?:
                [02-46-9]\d|
                5[0-46-9]
              )
            )|
            4(?:
              [2-478][02-9]\d|
              5(?:
                [034]\d|
                2[024-9]|
                5[0-46-9]
              )|
              6(?:
                0[1-9]|
                [2-9]\d
              )|
              9(?:
                [05-9]\d|
                2[0-5]|
                49
              )
            )
          )\d{4}|
          52[34][2-9]1[02-9]\d{4}|
          5(?:
            00|
            2[125-9]|
            3[23]|
            44|
            66|
            77|
            88
          )[2-9]\d{6}
        </nationalNumberPattern>
      </personalNumber>
    </territory>"];
  ["

    <!-- Albania (AL) -->
    <!-- http://www.itu.int/oth/T0202000002/en -->
    <territory id=""AL"" countryCode=""355"" internationalPrefix=""00"" nationalPrefix=""0""
               mobileNumberPortableRegion=""true"">
      <availableFormats>
        <!-- Premium rate or toll free formats -->
        <numberFormat pattern=""(\d{3})(\d{3,4})"" nationalPrefixFormattingRule=""$NP$FG"">
          <leadingDigits>
            80|
            9
          </leadingDigits>
          <format>$1 $2</format>
        </numberFormat>
        <!-- Formats mostly follow http://tirana.usembassy.gov/list_of_doctors.html -->
        <numberFormat pattern=""(\d)(\d{3})(\d{4})"" nationalPrefixFormattingRule=""$NP$FG"">
          <leadingDigits>4[2-6]</leadingDigits>
          <format>$1 $2 $3</format>
        </numberFormat>
        <numberFormat pattern=""(\d{2})(\d{3})(\d{3})"" nationalPrefixFormattingRule=""$NP$FG"">
          <leadingDigits>
            [2358][2-5]|
            4
          </leadingDigits>
          <format>$1 $2 $3</format>
        </numberFormat>
        <numberFormat pattern=""(\d{3})(\d{5})"" nationalPrefixFormattingRule=""$NP$FG"">
          <leadingDigits>[23578]</leadingDigits>
          <format>$1 $2</format>
        </numberFormat>
        <numberFormat pattern=""(\d{2})(\d{3})(\d{4})"" nationalPrefixFormattingRule=""$NP$FG"">
          <leadingDigits>6</leadingDigits>
          <format>$1 $2 $3</format>
        </numberFormat>
      </availableFormats>
      <generalDesc>
        <nationalNumberPattern>
          (?:
            700\d\d|
            900
          )\d{3}|
          8\d{5,7}|
          (?:
            [2-5]|
            6\d
          )\d{7}
        </nationalNumberPattern>
      </generalDesc>
      <fixedLine>
        <possibleLengths national=""8"" localOnly=""[5-7]""/>
        <exampleNumber>22345678</exampleNumber>
        <nationalNumberPattern>
          4505[0-2]\d{3}|
          (?:
            [2358][16-9]\d[2-9]|
            4410
          )\d{4}|
          (?:
";
   "            [2358][2-5][2-9]|
            4(?:
              [2-57-9][2-9]|
              6\d
            )
          )\d{5}
        </nationalNumberPattern>
      </fixedLine>
      <!-- More specific prefixes fr";
   "om the 1.NumraAlokuar.rar file linked fr";
   "om the ITU doc.
           Though 677 is mentioned as unallocated in
           http://akep.al/images/stories/AKEP/plani-numracionit/1.NumraAlokuar.rar,
           adding support for 67[7-9] based on carrier doc. -->
      <mobile>
        <possibleLengths national=""9""/>
        <exampleNumber>672123456</exampleNumber>
        <nationalNumberPattern>
          6(?:
            [78][2-9]|
            9\d
          )\d{6}
        </nationalNumberPattern>
      </mobile>
      <tollFree>
        <possibleLengths national=""7""/>
        <exampleNumber>8001234</exampleNumber>
        <nationalNumberPattern>800\d{4}</nationalNumberPattern>
      </tollFree>
      <!-- It is named ""Shared Revenue Services"" in the plan, but as there is a separate ""Shared
           Cost Services"", it is highly likely these numbers are premium rate numbers. No
           information/example is found in the Internet. -->
      <premiumRate>
        <possibleLengths national=""6""/>
        <exampleNumber>900123</exampleNumber>
        <nationalNumberPattern>900[1-9]\d\d</nationalNumberPattern>
      </premiumRate>
      <sharedCost>
        <possibleLengths national=""6""/>
        <exampleNumber>808123</exampleNumber>
        <nationalNumberPattern>808[1-9]\d\d</nationalNumberPattern>
      </sharedCost>
      <personalNumber>
        <possibleLengths national=""8""/>
        <exampleNumber>70021234</exampleNumber>
        <nationalNumberPattern>700[2-9]\d{4}</nationalNumberPattern>
      </personalNumber>
    </territory>"];
  ["

    <!-- Armenia (AM) -->
    <!-- We think the national dialling prefix is 0 - it seems this was a change in 2005 (or 2008)
         along with the new city codes. However, their official document makes no mention of it,
         websites disagree, and we are not sure if the change has actually been made. -->
    <!-- http://www.itu.int/oth/T020200000A/en -->
    <!-- http://en.wikipedia.org/wiki/%2B374 -->
    <!-- http://en.wikipedia.org/wiki/Telephone_numbers_in_Nagorno-Karabakh_Republic -->
    <territory id=""AM"" countryCode=""374"" internationalPrefix=""00"" nationalPrefix=""0""
               mobileNumberPortableRegion=""true"">
      <availableFormats>
        <numberFormat pattern=""(\d{3})(\d{2})(\d{3})"" nationalPrefixFormattingRule=""$NP $FG"">
          <leadingDigits>[89]0</leadingDigits>
          <format>$1 $2 $3</format>
        </numberFormat>
        <numberFormat pattern=""(\d{3})(\d{5})"" nationalPrefixFormattingRule=""($NP$FG)"">
          <leadingDigits>
            2|
            3[12]
          </leadingDigits>
          <format>$1 $2</format>
        </numberFormat>
        <numberFormat pattern=""(\d{2})(\d{6})"" nationalPrefixFormattingRule=""($NP$FG)"">
          <leadingDigits>
            1|
            47
          </leadingDigits>
          <format>$1 $2</format>
        </numberFormat>
        <numberFormat pattern=""(\d{2})(\d{6})"" nationalPrefixFormattingRule=""$NP$FG"">
          <leadingDigits>[3-9]</leadingDigits>
          <format>$1 $2</format>
        </numberFormat>
      </availableFormats>
      <generalDesc>
        <nationalNumberPattern>
          (?:
            [1-489]\d|
            55|
            60|
            77
          )\d{6}
        </nationalNumberPattern>
      </generalDesc>
      <!-- Includes telephone numbers in Nagorno-Karabakh Republic, physically located inside
           Azerbaijan, which use prefix 47. -->
      <fixedLine>
        <possibleLengths national=""8"" localOnly=""5,6""/>
        <exampleNumber>10123456</exampleNumber>
";
   "        <nationalNumberPattern>
          (?:
            (?:
              1[0-25]|
              47
            )\d|
            2(?:
              2[2-46]|
              3[1-8]|
              4[2-69]|
              5[2-7]|
              6[1-9]|
              8[1-7]
            )|
            3[12]2
          )\d{5}
        </nationalNumberPattern>
      </fixedLine>
      <!-- Part of the range 97 is used by Nagorno-Karabakh Republic. -->
      <mobile>
        <possibleLengths national=""8""/>
        <exampleNumber>77123456</exampleNumber>
        <nationalNumberPattern>
          (?:
            33|
            4[1349]|
            55|
            77|
            88|
            9[13-9]
          )\d{6}
        </nationalNumberPattern>
      </mobile>
      <tollFree>
        <possibleLengths national=""8""/>
        <exampleNumber>80012345</exampleNumber>
        <nationalNumberPattern>800\d{5}</nationalNumberPattern>
      </tollFree>
      <premiumRate>
        <possibleLengths national=""8""/>
        <exampleNumber>90012345</exampleNumber>
        <nationalNumberPattern>90[016]\d{5}</nationalNumberPattern>
      </premiumRate>
      <sharedCost>
        <possibleLengths national=""8""/>
        <exampleNumber>80112345</exampleNumber>
        <nationalNumberPattern>80[1-4]\d{5}</nationalNumberPattern>
      </sharedCost>
      <voip>
        <possibleLengths national=""8""/>
        <exampleNumber>60271234</exampleNumber>
        <nationalNumberPattern>
          60(?:
            2[78]|
            3[5-9]|
            4[02-9]|
            5[0-46-9]|
            [6-8]\d|
            9[0-2]
          )\d{4}
        </nationalNumberPattern>
      </voip>
    </territory>"];
  ["

    <!-- Angola (AO) -->
    <!-- http://www.itu.int/oth/T0202000006/en -->
    <territory id=""AO"" countryCode=""244"" internationalPrefix=""00"">
      <availableFormats>
        <numberFormat pattern=""(\d{3})(\d{3})(\d{3})"">
          <leadingDigits>[29]</leadingDigits>
          <format>$1 $2 $3</format>
        </numberFormat>
      </availableFormats>
      <generalDesc>
        <nationalNumberPattern>[29]\d{8}</nationalNumberPattern>
      </generalDesc>
      <!-- Supporting 2Y5 and 2YY5 ranges (where Y and YY represent one and two digit area code)
           based on user report and format followed in ITU doc. Wikipedia also mentions that
           ""Fixed-line numbers start with digit 2, followed by 1 or 2 digits area code. After the
           area code, there is one digit telecoms operator code. So now we are adding 5 as telecom
           operator code now."" -->
      <fixedLine>
        <possibleLengths national=""9""/>
        <exampleNumber>222123456</exampleNumber>
        <nationalNumberPattern>
          2\d(?:
            [0134][25-9]|
            [25-9]\d
          )\d{5}
        </nationalNumberPattern>
      </fixedLine>
      <!-- Expanded the 92 prefix possibilities to match numbers found online. Unitel
           apparently launched the prefix 94 on 25th April 2012, and Movicel has 99. -->
      <mobile>
        <possibleLengths national=""9""/>
        <exampleNumber>923123456</exampleNumber>
        <nationalNumberPattern>9[1-79]\d{7}</nationalNumberPattern>
      </mobile>
    </territory>"];
  ["

    <!-- Argentina (AR) -->
    <!-- The national prefix for parsing here consists of a 0 (optional), followed by the area code
         (which is captured, so that it can be retained), followed by 15, which is the mobile token,
         which will be stripped if present. We expect the following combinations: 0AC15 and AC15
         (where the 0 and 15 will be stripped, and it will be transformed into 9AC), 0, and 15 (in
         the latter two cases we just strip the 0 or 15 as appropriate and leave the number as is.) -->
    <!-- http://www.itu.int/oth/T0202000009/en -->
    <!-- https://www.enacom.gob.ar/indicativos-de-servicio_p141 -->
    <!-- https://www.enacom.gob.ar/indicativos-interurbanos_p143 -->
    <!-- http://en.wikipedia.org/wiki/+54 -->
    <territory id=""AR"" countryCode=""54"" internationalPrefix=""00"" nationalPrefix=""0""
               nationalPrefixForParsing=""
                 0?(?:
                   (
                     11|
                     2(?:
                       2(?:
                         02?|
                         [13]|
                         2[13-79]|
                         4[1-6]|
                         5[2457]|
                         6[124-8]|
                         7[1-4]|
                         8[13-6]|
                         9[1267]
                       )|
                       3(?:
                         02?|
                         1[467]|
                         2[03-6]|
                         3[13-8]|
                         [49][2-6]|
                         5[2-8]|
                         [67]
                       )|
                       4(?:
                         7[3-578]|
                         9
                       )|
                       6(?:
                         [0136]|
                         2[24-6]|
                         4[6-8]?|
                         5[15-8]
                       )|
                       80|
                       9(?:
                         0[1-3]|
";
   "                         [19]|
                         2\d|
                         3[1-6]|
                         4[02568]?|
                         5[2-4]|
                         6[2-46]|
                         72?|
                         8[23]?
                       )
                     )|
                     3(?:
                       3(?:
                         2[79]|
                         6|
                         8[2578]
                       )|
                       4(?:
                         0[0-24-9]|
                         [12]|
                         3[5-8]?|
                         4[24-7]|
                         5[4-68]?|
                         6[02-9]|
                         7[126]|
                         8[2379]?|
                         9[1-36-8]
                       )|
                       5(?:
                         1|
                         2[1245]|
                         3[237]?|
                         4[1-46-9]|
                         6[2-4]|
                         7[1-6]|
                         8[2-5]?
                       )|
                       6[24]|
                       7(?:
                         [069]|
                         1[1568]|
                         2[15]|
                         3[145]|
                         4[13]|
                         5[14-8]|
                         7[2-57]|
                         8[126]
                       )|
                       8(?:
                         [01]|
                         2[15-7]|
                         3[2578]?|
                         4[13-6]|
                         5[4-8]?|
                         6[1-357-9]|
                         7[36-8]?|
                         8[5-8]?|
                         9[124]
                       )
                     )
                   )15
                 )?""
               nationalPrefixTransformRule=""9$1"" mobileNumberPortableRegion=""true"">
      <availableFormats>
";
   "        <!-- Format short numbers as a block. -->
        <numberFormat pattern=""(\d{3})"">
          <leadingDigits>
            0|
            1(?:
              0[0-35-7]|
              1[02-5]|
              2[015]|
              3[47]|
              4[478]
            )|
            911
          </leadingDigits>
          <format>$1</format>
          <intlFormat>NA</intlFormat>
        </numberFormat>
        <numberFormat pattern=""(\d{2})(\d{4})"">
          <leadingDigits>[1-9]</leadingDigits>
          <format>$1-$2</format>
          <intlFormat>NA</intlFormat>
        </numberFormat>
        <numberFormat pattern=""(\d{3})(\d{4})"">
          <leadingDigits>[2-9]</leadingDigits>
          <format>$1-$2</format>
          <intlFormat>NA</intlFormat>
        </numberFormat>
        <numberFormat pattern=""(\d{4})(\d{4})"">
          <leadingDigits>[1-8]</leadingDigits>
          <format>$1-$2</format>
          <intlFormat>NA</intlFormat>
        </numberFormat>
        <numberFormat pattern=""(\d{4})(\d{2})(\d{4})"" nationalPrefixFormattingRule=""$NP$FG""
                      nationalPrefixOptionalWhenFormatting=""true"">
          <leadingDigits>
            2(?:
              2[024-9]|
              3[0-59]|
              47|
              6[245]|
              9[02-8]
            )|
            3(?:
              3[28]|
              4[03-9]|
              5[2-46-8]|
              7[1-578]|
              8[2-9]
            )
          </leadingDigits>
          <leadingDigits>
            2(?:
              [23]02|
              6(?:
                [25]|
                4[6-8]
              )|
              9(?:
                [02356]|
                4[02568]|
                72|
                8[23]
              )
            )|
            3(?:
              3[28]|
              4(?:
                [04679]|
                3[5-8]|
                5[4-68]|
                8[2379]
              )|
              5(?:
                [2467]|
                3[237]|
";
   "                8[2-5]
              )|
              7[1-578]|
              8(?:
                [2469]|
                3[2578]|
                5[4-8]|
                7[36-8]|
                8[5-8]
              )
            )|
            2(?:
              2[24-9]|
              3[1-59]|
              47
            )
          </leadingDigits>
          <leadingDigits>
            2(?:
              [23]02|
              6(?:
                [25]|
                4(?:
                  64|
                  [78]
                )
              )|
              9(?:
                [02356]|
                4(?:
                  [0268]|
                  5[2-6]
                )|
                72|
                8[23]
              )
            )|
            3(?:
              3[28]|
              4(?:
                [04679]|
                3[78]|
                5(?:
                  4[46]|
                  8
                )|
                8[2379]
              )|
              5(?:
                [2467]|
                3[237]|
                8[23]
              )|
              7[1-578]|
              8(?:
                [2469]|
                3[278]|
                5[56][46]|
                86[3-6]
              )
            )|
            2(?:
              2[24-9]|
              3[1-59]|
              47
            )|
            38(?:
              [58][78]|
              7[378]
            )|
            3(?:
              4[35][56]|
              58[45]|
              8(?:
                [38]5|
                54|
                76
              )
            )[4-6]
          </leadingDigits>
          <leadingDigits>
            2(?:
              [23]02|
              6(?:
                [25]|
                4(?:
                  64|
                  [78]
                )
              )|
              9(?:
                [02356]|
                4(?:
                  [0268]|
                  5[2-6]
                )|
";
   "                72|
                8[23]
              )
            )|
            3(?:
              3[28]|
              4(?:
                [04679]|
                3(?:
                  5(?:
                    4[0-25689]|
                    [56]
                  )|
                  [78]
                )|
                58|
                8[2379]
              )|
              5(?:
                [2467]|
                3[237]|
                8(?:
                  [23]|
                  4(?:
                    [45]|
                    60
                  )|
                  5(?:
                    4[0-39]|
                    5|
                    64
                  )
                )
              )|
              7[1-578]|
              8(?:
                [2469]|
                3[278]|
                54(?:
                  4|
                  5[13-7]|
                  6[89]
                )|
                86[3-6]
              )
            )|
            2(?:
              2[24-9]|
              3[1-59]|
              47
            )|
            38(?:
              [58][78]|
              7[378]
            )|
            3(?:
              454|
              85[56]
            )[46]|
            3(?:
              4(?:
                36|
                5[56]
              )|
              8(?:
                [38]5|
                76
              )
            )[4-6]
          </leadingDigits>
          <format>$1 $2-$3</format>
        </numberFormat>
        <!-- Formatting for geographic numbers (including those which can be dialled with a mobile token). -->
        <numberFormat pattern=""(\d{2})(\d{4})(\d{4})"" nationalPrefixFormattingRule=""$NP$FG""
                      nationalPrefixOptionalWhenFormatting=""true"">
          <leadingDigits>1</leadingDigits>
          <format>$1 $2-$3</format>
        </numberFormat>
        <!-- Various non-geographic numbers, including UAN, premium rate but also some mobile
             ranges. We assume no lo";
   "cal dialling is possible for these ranges. -->
";
   "        <numberFormat pattern=""(\d{3})(\d{3})(\d{4})"" nationalPrefixFormattingRule=""$NP$FG"">
          <leadingDigits>[68]</leadingDigits>
          <format>$1-$2-$3</format>
        </numberFormat>
        <numberFormat pattern=""(\d{3})(\d{3})(\d{4})"" nationalPrefixFormattingRule=""$NP$FG""
                      nationalPrefixOptionalWhenFormatting=""true"">
          <leadingDigits>[23]</leadingDigits>
          <format>$1 $2-$3</format>
        </numberFormat>
        <numberFormat pattern=""(\d)(\d{4})(\d{2})(\d{4})"" nationalPrefixFormattingRule=""$NP$FG"">
          <leadingDigits>
            9(?:
              2[2-469]|
              3[3-578]
            )
          </leadingDigits>
          <leadingDigits>
            9(?:
              2(?:
                2[024-9]|
                3[0-59]|
                47|
                6[245]|
                9[02-8]
              )|
              3(?:
                3[28]|
                4[03-9]|
                5[2-46-8]|
                7[1-578]|
                8[2-9]
              )
            )
          </leadingDigits>
          <leadingDigits>
            9(?:
              2(?:
                [23]02|
                6(?:
                  [25]|
                  4[6-8]
                )|
                9(?:
                  [02356]|
                  4[02568]|
                  72|
                  8[23]
                )
              )|
              3(?:
                3[28]|
                4(?:
                  [04679]|
                  3[5-8]|
                  5[4-68]|
                  8[2379]
                )|
                5(?:
                  [2467]|
                  3[237]|
                  8[2-5]
                )|
                7[1-578]|
                8(?:
                  [2469]|
                  3[2578]|
                  5[4-8]|
                  7[36-8]|
                  8[5-8]
                )
              )
            )|
            92(?:
              2[24-9]|
              3[1-59]|
";
   "              47
            )
          </leadingDigits>
          <leadingDigits>
            9(?:
              2(?:
                [23]02|
                6(?:
                  [25]|
                  4(?:
                    64|
                    [78]
                  )
                )|
                9(?:
                  [02356]|
                  4(?:
                    [0268]|
                    5[2-6]
                  )|
                  72|
                  8[23]
                )
              )|
              3(?:
                3[28]|
                4(?:
                  [04679]|
                  3[78]|
                  5(?:
                    4[46]|
                    8
                  )|
                  8[2379]
                )|
                5(?:
                  [2467]|
                  3[237]|
                  8[23]
                )|
                7[1-578]|
                8(?:
                  [2469]|
                  3[278]|
                  5(?:
                    [56][46]|
                    [78]
                  )|
                  7[378]|
                  8(?:
                    6[3-6]|
                    [78]
                  )
                )
              )
            )|
            92(?:
              2[24-9]|
              3[1-59]|
              47
            )|
            93(?:
              4[35][56]|
              58[45]|
              8(?:
                [38]5|
                54|
                76
              )
            )[4-6]
          </leadingDigits>
          <leadingDigits>
            9(?:
              2(?:
                [23]02|
                6(?:
                  [25]|
                  4(?:
                    64|
                    [78]
                  )
                )|
                9(?:
                  [02356]|
                  4(?:
                    [0268]|
                    5[2-6]
                  )|
                  72|
                  8[23]
";
   "                )
              )|
              3(?:
                3[28]|
                4(?:
                  [04679]|
                  3(?:
                    5(?:
                      4[0-25689]|
                      [56]
                    )|
                    [78]
                  )|
                  5(?:
                    4[46]|
                    8
                  )|
                  8[2379]
                )|
                5(?:
                  [2467]|
                  3[237]|
                  8(?:
                    [23]|
                    4(?:
                      [45]|
                      60
                    )|
                    5(?:
                      4[0-39]|
                      5|
                      64
                    )
                  )
                )|
                7[1-578]|
                8(?:
                  [2469]|
                  3[278]|
                  5(?:
                    4(?:
                      4|
                      5[13-7]|
                      6[89]
                    )|
                    [56][46]|
                    [78]
                  )|
                  7[378]|
                  8(?:
                    6[3-6]|
                    [78]
                  )
                )
              )
            )|
            92(?:
              2[24-9]|
              3[1-59]|
              47
            )|
            93(?:
              4(?:
                36|
                5[56]
              )|
              8(?:
                [38]5|
                76
              )
            )[4-6]
          </leadingDigits>
          <format>$2 15-$3-$4</format>
          <intlFormat>$1 $2 $3-$4</intlFormat>
        </numberFormat>
        <numberFormat pattern=""(\d)(\d{2})(\d{4})(\d{4})"" nationalPrefixFormattingRule=""$NP$FG"">
          <leadingDigits>91</leadingDigits>
          <format>$2 15-$3-$4</format>
          <intlFormat>$1 $2 $3-$4</intlFormat>
        </numberFormat>
";
   "        <numberFormat pattern=""(\d{3})(\d{3})(\d{5})"" nationalPrefixFormattingRule=""$NP$FG"">
          <leadingDigits>8</leadingDigits>
          <format>$1-$2-$3</format>
        </numberFormat>
        <numberFormat pattern=""(\d)(\d{3})(\d{3})(\d{4})"" nationalPrefixFormattingRule=""$NP$FG"">
          <leadingDigits>9</leadingDigits>
          <format>$2 15-$3-$4</format>
          <intlFormat>$1 $2 $3-$4</intlFormat>
        </numberFormat>
      </availableFormats>
      <generalDesc>
        <nationalNumberPattern>
          (?:
            11|
            [89]\d\d
          )\d{8}|
          [2368]\d{9}
        </nationalNumberPattern>
      </generalDesc>
      <noInternationalDialling>
        <possibleLengths national=""10""/>
        <nationalNumberPattern>810\d{7}</nationalNumberPattern>
      </noInternationalDialling>
      <!-- Also covering fixed satellite service numbers (670). -->
      <fixedLine>
        <possibleLengths national=""10"" localOnly=""[6-8]""/>
        <exampleNumber>1123456789</exampleNumber>
        <nationalNumberPattern>
          3(?:
            7(?:
              1[15]|
              81
            )|
            8(?:
              21|
              4[16]|
              69|
              9[12]
            )
          )[46]\d{5}|
          (?:
            2(?:
              2(?:
                2[59]|
                44|
                52
              )|
              3(?:
                26|
                44
              )|
              47[35]|
              9(?:
                [07]2|
                2[26]|
                34|
                46
              )
            )|
            3327
          )[45]\d{5}|
          (?:
            2(?:
              657|
              9(?:
                54|
                66
              )
            )|
            3(?:
              48[27]|
              7(?:
                55|
                77
              )|
              8(?:
                65|
                78
              )
";
   "            )
          )[2-8]\d{5}|
          (?:
            2(?:
              284|
              3(?:
                02|
                23
              )|
              477|
              622|
              920
            )|
            3(?:
              4(?:
                46|
                89|
                92
              )|
              541
            )
          )[2-7]\d{5}|
          (?:
            (?:
              11[1-8]|
              670
            )\d|
            2(?:
              2(?:
                0[45]|
                1[2-6]|
                3[3-6]
              )|
              3(?:
                [06]4|
                7[45]
              )|
              494|
              6(?:
                04|
                1[2-8]|
                [36][45]|
                4[3-6]
              )|
              80[45]|
              9(?:
                [17][4-6]|
                [48][45]|
                9[3-6]
              )
            )|
            3(?:
              364|
              4(?:
                1[2-8]|
                [25][4-6]|
                3[3-6]|
                84
              )|
              5(?:
                1[2-9]|
                [38][4-6]
              )|
              6(?:
                2[45]|
                44
              )|
              7[069][45]|
              8(?:
                0[45]|
                1[2-7]|
                3[4-6]|
                5[3-6]|
                7[2-6]|
                8[3-68]
              )
            )
          )\d{6}|
          (?:
            2(?:
              2(?:
                62|
                81
              )|
              320|
              9(?:
                42|
                83
              )
            )|
            3(?:
              329|
              4(?:
                62|
                7[16]
              )|
              5(?:
                43|
                64
              )|
              7(?:
                18|
                5[17]
";
   "              )
            )
          )[2-6]\d{5}|
          2(?:
            2(?:
              21|
              4[23]|
              6[145]|
              7[1-4]|
              8[356]|
              9[267]
            )|
            3(?:
              16|
              3[13-8]|
              43|
              5[346-8]|
              9[3-5]
            )|
            6(?:
              2[46]|
              4[78]|
              5[1568]
            )|
            9(?:
              03|
              2[1457-9]|
              3[1356]|
              4[08]|
              [56][23]|
              82
            )
          )4\d{5}|
          (?:
            2(?:
              257|
              3(?:
                24|
                46|
                92
              )|
              9(?:
                01|
                23|
                64
              )
            )|
            3(?:
              4(?:
                42|
                64
              )|
              5(?:
                25|
                37|
                4[47]|
                71
              )|
              7(?:
                35|
                72
              )|
              825
            )
          )[3-6]\d{5}|
          (?:
            2(?:
              2(?:
                02|
                2[3467]|
                4[156]|
                5[45]|
                6[6-8]|
                91
              )|
              3(?:
                1[47]|
                25|
                [45][25]|
                96
              )|
              47[48]|
              625|
              932
            )|
            3(?:
              38[2578]|
              4(?:
                0[0-24-9]|
                3[78]|
                4[457]|
                58|
                6[035-9]|
                72|
                83|
                9[136-8]
              )|
              5(?:
                2[124]|
                [368][23]|
                4[2689]|
                7[2-6]
";
   "              )|
              7(?:
                16|
                2[15]|
                3[14]|
                4[13]|
                5[468]|
                7[3-5]|
                8[26]
              )|
              8(?:
                2[67]|
                3[278]|
                4[3-5]|
                5[78]|
                6[1-378]|
                [78]7|
                94
              )
            )
          )[4-6]\d{5}
        </nationalNumberPattern>
      </fixedLine>
      <!-- Also covers mobile satellite services (675 numbers). -->
      <mobile>
        <possibleLengths national=""10,11"" localOnly=""[6-8]""/>
        <exampleNumber>91123456789</exampleNumber>
        <nationalNumberPattern>
          93(?:
            7(?:
              1[15]|
              81
            )|
            8(?:
              21|
              4[16]|
              69|
              9[12]
            )
          )[46]\d{5}|
          9(?:
            2(?:
              2(?:
                2[59]|
                44|
                52
              )|
              3(?:
                26|
                44
              )|
              47[35]|
              9(?:
                [07]2|
                2[26]|
                34|
                46
              )
            )|
            3327
          )[45]\d{5}|
          9(?:
            2(?:
              657|
              9(?:
                54|
                66
              )
            )|
            3(?:
              48[27]|
              7(?:
                55|
                77
              )|
              8(?:
                65|
                78
              )
            )
          )[2-8]\d{5}|
          9(?:
            2(?:
              284|
              3(?:
                02|
                23
              )|
              477|
              622|
              920
            )|
            3(?:
              4(?:
                46|
                89|
                92
              )|
";
   "              541
            )
          )[2-7]\d{5}|
          (?:
            675\d|
            9(?:
              11[1-8]\d|
              2(?:
                2(?:
                  0[45]|
                  1[2-6]|
                  3[3-6]
                )|
                3(?:
                  [06]4|
                  7[45]
                )|
                494|
                6(?:
                  04|
                  1[2-8]|
                  [36][45]|
                  4[3-6]
                )|
                80[45]|
                9(?:
                  [17][4-6]|
                  [48][45]|
                  9[3-6]
                )
              )|
              3(?:
                364|
                4(?:
                  1[2-8]|
                  [25][4-6]|
                  3[3-6]|
                  84
                )|
                5(?:
                  1[2-9]|
                  [38][4-6]
                )|
                6(?:
                  2[45]|
                  44
                )|
                7[069][45]|
                8(?:
                  0[45]|
                  1[2-7]|
                  3[4-6]|
                  5[3-6]|
                  7[2-6]|
                  8[3-68]
                )
              )
            )
          )\d{6}|
          9(?:
            2(?:
              2(?:
                62|
                81
              )|
              320|
              9(?:
                42|
                83
              )
            )|
            3(?:
              329|
              4(?:
                62|
                7[16]
              )|
              5(?:
                43|
                64
              )|
              7(?:
                18|
                5[17]
              )
            )
          )[2-6]\d{5}|
          92(?:
            2(?:
              21|
              4[23]|
              6[145]|
              7[1-4]|
              8[356]|
              9[267]
            )|
";
   "            3(?:
              16|
              3[13-8]|
              43|
              5[346-8]|
              9[3-5]
            )|
            6(?:
              2[46]|
              4[78]|
              5[1568]
            )|
            9(?:
              03|
              2[1457-9]|
              3[1356]|
              4[08]|
              [56][23]|
              82
            )
          )4\d{5}|
          9(?:
            2(?:
              257|
              3(?:
                24|
                46|
                92
              )|
              9(?:
                01|
                23|
                64
              )
            )|
            3(?:
              4(?:
                42|
                64
              )|
              5(?:
                25|
                37|
                4[47]|
                71
              )|
              7(?:
                35|
                72
              )|
              825
            )
          )[3-6]\d{5}|
          9(?:
            2(?:
              2(?:
                02|
                2[3467]|
                4[156]|
                5[45]|
                6[6-8]|
                91
              )|
              3(?:
                1[47]|
                25|
                [45][25]|
                96
              )|
              47[48]|
              625|
              932
            )|
            3(?:
              38[2578]|
              4(?:
                0[0-24-9]|
                3[78]|
                4[457]|
                58|
                6[035-9]|
                72|
                83|
                9[136-8]
              )|
              5(?:
                2[124]|
                [368][23]|
                4[2689]|
                7[2-6]
              )|
              7(?:
                16|
                2[15]|
                3[14]|
                4[13]|
                5[468]|
                7[3-5]|
                8[26]
              )|
              8(?:
";
   "                2[67]|
                3[278]|
                4[3-5]|
                5[78]|
                6[1-378]|
                [78]7|
                94
              )
            )
          )[4-6]\d{5}
        </nationalNumberPattern>
      </mobile>
      <tollFree>
        <possibleLengths national=""10,11""/>
        <exampleNumber>8001234567</exampleNumber>
        <nationalNumberPattern>800\d{7,8}</nationalNumberPattern>
      </tollFree>
      <premiumRate>
        <possibleLengths national=""10""/>
        <exampleNumber>6001234567</exampleNumber>
        <nationalNumberPattern>60[04579]\d{7}</nationalNumberPattern>
      </premiumRate>
      <uan>
        <possibleLengths national=""10""/>
        <exampleNumber>8101234567</exampleNumber>
        <nationalNumberPattern>810\d{7}</nationalNumberPattern>
      </uan>
    </territory>"];
  ["

    <!-- American Samoa (AS) -->
    <!-- Calling code and formatting shared with 'US' -->
    <!-- http://www.itu.int/oth/T0202000004/en -->
    <territory id=""AS"" countryCode=""1"" leadingDigits=""684"" internationalPrefix=""011""
               nationalPrefix=""1"" nationalPrefixForParsing=""([267]\d{6})$|1""
               nationalPrefixTransformRule=""684$1"">
      <generalDesc>
        <nationalNumberPattern>
          (?:
            [58]\d\d|
            684|
            900
          )\d{7}
        </nationalNumberPattern>
      </generalDesc>
      <fixedLine>
        <possibleLengths national=""10"" localOnly=""7""/>
        <exampleNumber>6846221234</exampleNumber>
        <nationalNumberPattern>
          684(?:
            274|
            6(?:
              22|
              33|
              44|
              55|
              77|
              88|
              9[19]
            )
          )\d{4}
        </nationalNumberPattern>
      </fixedLine>
      <!-- Added 25[246] and 272, operated by Blue Sky. Added 731, 770, operated by ASTCA. -->
      <mobile>
        <possibleLengths national=""10"" localOnly=""7""/>
        <exampleNumber>6847331234</exampleNumber>
        <nationalNumberPattern>
          684(?:
            2(?:
              48|
              5[2468]|
              7[246]
            )|
            7(?:
              3[13]|
              70|
              82
            )
          )\d{4}
        </nationalNumberPattern>
      </mobile>
      <tollFree>
        <possibleLengths national=""10""/>
        <exampleNumber>8002123456</exampleNumber>
        <nationalNumberPattern>
          8(?:
            00|
            33|
            44|
            55|
            66|
            77|
            88
          )[2-9]\d{6}
        </nationalNumberPattern>
      </tollFree>
      <premiumRate>
        <possibleLengths national=""10""/>
        <exampleNumber>9002123456</exampleNumber>
        <nationalNumberPattern>900[2-9]\d{6}</nationalNumberPattern>
      </premiumRate>
";
   "      <!-- https://www.nationalnanpa.com/number_resource_info/5XX_codes.html -->
      <personalNumber>
        <possibleLengths national=""10""/>
        <exampleNumber>5002345678</exampleNumber>
        <nationalNumberPattern>
          52(?:
            3(?:
              [2-46-9][02-9]\d|
              5(?:
                [02-46-9]\d|
                5[0-46-9]
              )
            )|
            4(?:
              [2-478][02-9]\d|
              5(?:
                [034]\d|
                2[024-9]|
                5[0-46-9]
              )|
              6(?:
                0[1-9]|
                [2-9]\d
              )|
              9(?:
                [05-9]\d|
                2[0-5]|
                49
              )
            )
          )\d{4}|
          52[34][2-9]1[02-9]\d{4}|
          5(?:
            00|
            2[125-9]|
            3[23]|
            44|
            66|
            77|
            88
          )[2-9]\d{6}
        </nationalNumberPattern>
      </personalNumber>
    </territory>"];
  ["

    <!-- Austria (AT) -->
    <!-- http://www.rtr.at/en/tk/E129 -->
    <territory id=""AT"" countryCode=""43"" internationalPrefix=""00"" nationalPrefix=""0""
               mobileNumberPortableRegion=""true"">
      <availableFormats>
        <!-- Shortcode format -->
        <numberFormat pattern=""(\d{4})"">
          <leadingDigits>14</leadingDigits>
          <format>$1</format>
          <intlFormat>NA</intlFormat>
        </numberFormat>
        <!-- Vienna (Wien) fixed line format (1-digit area code). -->
        <numberFormat pattern=""(\d)(\d{3,12})"" nationalPrefixFormattingRule=""$NP$FG"">
          <leadingDigits>
            1(?:
              11|
              [2-9]
            )
          </leadingDigits>
          <format>$1 $2</format>
        </numberFormat>
        <!-- VOIP (517xx only, which seems like the only VOIP range with a 3-digit prefix). -->
        <numberFormat pattern=""(\d{3})(\d{2})"" nationalPrefixFormattingRule=""$NP$FG"">
          <leadingDigits>517</leadingDigits>
          <format>$1 $2</format>
        </numberFormat>
        <!-- VOIP (5-7 digits).
             These formats are the most common for prefixes 050, 057 and 059, as found on Austrian web pages. -->
        <numberFormat pattern=""(\d{2})(\d{3,5})"" nationalPrefixFormattingRule=""$NP$FG"">
          <leadingDigits>5[079]</leadingDigits>
          <format>$1 $2</format>
        </numberFormat>
        <!-- Shortcode format -->
        <numberFormat pattern=""(\d{6})"">
          <leadingDigits>[18]</leadingDigits>
          <format>$1</format>
          <intlFormat>NA</intlFormat>
        </numberFormat>
        <!-- 3-digit area codes (fixed line, including premium rate and toll free). -->
        <numberFormat pattern=""(\d{3})(\d{3,10})"" nationalPrefixFormattingRule=""$NP$FG"">
          <leadingDigits>
            (?:
              31|
              4
            )6|
            51|
            6(?:
              48|
              5[0-3579]|
              [6-9]
            )|
            7(?:
";
   "              20|
              32|
              8
            )|
            [89]
          </leadingDigits>
          <leadingDigits>
            (?:
              31|
              4
            )6|
            51|
            6(?:
              485|
              5[0-3579]|
              [6-9]
            )|
            7(?:
              20|
              32|
              8
            )|
            [89]
          </leadingDigits>
          <format>$1 $2</format>
        </numberFormat>
        <!-- 4-digit area codes (fixed line only). -->
        <numberFormat pattern=""(\d{4})(\d{3,9})"" nationalPrefixFormattingRule=""$NP$FG"">
          <leadingDigits>
            [2-467]|
            5[2-6]
          </leadingDigits>
          <format>$1 $2</format>
        </numberFormat>
        <!-- VOIP (8-9 digits). -->
        <numberFormat pattern=""(\d{2})(\d{3})(\d{3,4})"" nationalPrefixFormattingRule=""$NP$FG"">
          <leadingDigits>5</leadingDigits>
          <format>$1 $2 $3</format>
        </numberFormat>
        <!-- VOIP (10-13 digits). -->
        <numberFormat pattern=""(\d{2})(\d{4})(\d{4,7})"" nationalPrefixFormattingRule=""$NP$FG"">
          <leadingDigits>5</leadingDigits>
          <format>$1 $2 $3</format>
        </numberFormat>
      </availableFormats>
      <generalDesc>
        <nationalNumberPattern>
          1\d{3,12}|
          2\d{6,12}|
          43(?:
            (?:
              0\d|
              5[02-9]
            )\d{3,9}|
            2\d{4,5}|
            [3467]\d{4}|
            8\d{4,6}|
            9\d{4,7}
          )|
          5\d{4,12}|
          8\d{7,12}|
          9\d{8,12}|
          (?:
            [367]\d|
            4[0-24-9]
          )\d{4,11}
        </nationalNumberPattern>
      </generalDesc>
      <!-- Note that the full area code is not validated - just the first 3 digits. This also
           means that even though for most Austrian numbers the minimum length is 7, we allow 6
           since we don't differentiate below between 3 and 4 digit area codes for reasons of
";
   "           efficiency. -->
      <fixedLine>
        <possibleLengths national=""[4-13]"" localOnly=""3""/>
        <exampleNumber>1234567890</exampleNumber>
        <nationalNumberPattern>
          1(?:
            11\d|
            [2-9]\d{3,11}
          )|
          (?:
            316|
            463
          )\d{3,10}|
          648[34]\d{3,9}|
          (?:
            51|
            66|
            73
          )2\d{3,10}|
          (?:
            2(?:
              1[467]|
              2[13-8]|
              5[2357]|
              6[1-46-8]|
              7[1-8]|
              8[124-7]|
              9[1458]
            )|
            3(?:
              1[1-578]|
              3[23568]|
              4[5-7]|
              5[1378]|
              6[1-38]|
              8[3-68]
            )|
            4(?:
              2[1-8]|
              35|
              7[1368]|
              8[2457]
            )|
            5(?:
              2[1-8]|
              3[357]|
              4[147]|
              5[12578]|
              6[37]
            )|
            6(?:
              13|
              2[1-47]|
              4[135-7]|
              5[468]
            )|
            7(?:
              2[1-8]|
              35|
              4[13478]|
              5[68]|
              6[16-8]|
              7[1-6]|
              9[45]
            )
          )\d{4,10}
        </nationalNumberPattern>
      </fixedLine>
      <mobile>
        <possibleLengths national=""[7-13]""/>
        <exampleNumber>664123456</exampleNumber>
        <nationalNumberPattern>
          6(?:
            485|
            (?:
              5[0-3579]|
              6[013-9]|
              [7-9]\d
            )\d
          )\d{3,9}
        </nationalNumberPattern>
      </mobile>
      <tollFree>
        <possibleLengths national=""[9-13]""/>
        <exampleNumber>800123456</exampleNumber>
        <nationalNumberPattern>800\d{6,10}</nationalNumberPattern>
      </tollFree>
      <premiumRate>
";
   "        <possibleLengths national=""[9-13]""/>
        <exampleNumber>900123456</exampleNumber>
        <nationalNumberPattern>
          (?:
            8[69][2-68]|
            9(?:
              0[01]|
              3[019]
            )
          )\d{6,10}
        </nationalNumberPattern>
      </premiumRate>
      <sharedCost>
        <possibleLengths national=""[8-13]""/>
        <exampleNumber>810123456</exampleNumber>
        <nationalNumberPattern>
          8(?:
            10|
            2[018]
          )\d{6,10}|
          828\d{5}
        </nationalNumberPattern>
      </sharedCost>
      <!-- Convergent service numbers 780 are supported here as VOIP is closest match for such
           numbers. All location independent corporate numbers are supported as we found these
           are dialled via IP. -->
      <voip>
        <possibleLengths national=""[5-13]""/>
        <exampleNumber>780123456</exampleNumber>
        <nationalNumberPattern>
          5(?:
            0[1-9]|
            17|
            [79]\d
          )\d{2,10}|
          7[28]0\d{6,10}
        </nationalNumberPattern>
      </voip>
    </territory>"];
  ["

    <!-- Australia (AU) -->
    <!-- Main region for 'CC,CX' -->
    <!-- International prefix based on the wikipedia page, either being a combination of the
         ""Provider override codes"" with the default IDD (0011) following, or the default IDD,
         or the other IDD codes for non-default carriers. -->
    <!-- http://www.itu.int/oth/T020200000D/en -->
    <!-- http://en.wikipedia.org/wiki/Telephone_numbers_in_Australia -->
    <!-- https://www.thenumberingsystem.com.au/#/number-register/search -->
    <territory id=""AU"" mainCountryForCode=""true"" countryCode=""61""
               preferredInternationalPrefix=""0011""
               internationalPrefix=""001[14-689]|14(?:1[14]|34|4[17]|[56]6|7[47]|88)0011""
               nationalPrefix=""0"" nationalPrefixForParsing=""(183[12])|0""
               mobileNumberPortableRegion=""true"">
      <availableFormats>
        <!-- Pager (5-6 digits) -->
        <numberFormat pattern=""(\d{2})(\d{3,4})"" nationalPrefixFormattingRule=""$NP$FG"">
          <leadingDigits>16</leadingDigits>
          <format>$1 $2</format>
        </numberFormat>
        <!-- 6-digit va";
   "riable cost fixed line (toll free, premium rate, shared cost) -->
        <numberFormat pattern=""(\d{2})(\d{2})(\d{2})"">
          <leadingDigits>13</leadingDigits>
          <format>$1 $2 $3</format>
          <intlFormat>NA</intlFormat>
        </numberFormat>
        <!-- Premium rate SMS (6 digit) -->
        <numberFormat pattern=""(\d{3})(\d{3})"">
          <leadingDigits>19</leadingDigits>
          <format>$1 $2</format>
          <intlFormat>NA</intlFormat>
        </numberFormat>
        <!-- 7-digit va";
   "riable cost fixed line (toll free, premium rate, shared cost) -->
        <numberFormat pattern=""(\d{3})(\d{4})"">
          <leadingDigits>180</leadingDigits>
          <leadingDigits>1802</leadingDigits>
          <format>$1 $2</format>
          <intlFormat>NA</intlFormat>
        </numberFormat>
        <!-- Premium rate SMS (7-8 digit) -->
        <numberFormat pattern=""(\d{4})(\d{3,4})"">
";
   "          <leadingDigits>19</leadingDigits>
          <format>$1 $2</format>
          <intlFormat>NA</intlFormat>
        </numberFormat>
        <!-- Pager (7-9 digits) -->
        <numberFormat pattern=""(\d{2})(\d{3})(\d{2,4})"" nationalPrefixFormattingRule=""$NP$FG"">
          <leadingDigits>16</leadingDigits>
          <format>$1 $2 $3</format>
        </numberFormat>
        <!-- Mobile and VOIP -->
        <numberFormat pattern=""(\d{3})(\d{3})(\d{3})"" nationalPrefixFormattingRule=""$NP$FG"">
          <leadingDigits>
            14|
            4
          </leadingDigits>
          <format>$1 $2 $3</format>
        </numberFormat>
        <!-- Fixed line -->
        <numberFormat pattern=""(\d)(\d{4})(\d{4})"" nationalPrefixFormattingRule=""($NP$FG)""
                      carrierCodeFormattingRule=""$CC ($FG)"">
          <leadingDigits>[2378]</leadingDigits>
          <format>$1 $2 $3</format>
        </numberFormat>
        <!-- 10-digit va";
   "riable cost fixed line (toll free, premium rate, shared cost) -->
        <numberFormat pattern=""(\d{4})(\d{3})(\d{3})"">
          <leadingDigits>
            1(?:
              30|
              [89]
            )
          </leadingDigits>
          <format>$1 $2 $3</format>
        </numberFormat>
        <numberFormat pattern=""(\d{4})(\d{4})(\d{4})"">
          <leadingDigits>130</leadingDigits>
          <format>$1 $2 $3</format>
          <intlFormat>NA</intlFormat>
        </numberFormat>
      </availableFormats>
      <generalDesc>
        <nationalNumberPattern>
          1(?:
            [0-79]\d{7}(?:
              \d(?:
                \d{2}
              )?
            )?|
            8[0-24-9]\d{7}
          )|
          [2-478]\d{8}|
          1\d{4,7}
        </nationalNumberPattern>
      </generalDesc>
      <noInternationalDialling>
        <possibleLengths national=""[6-8],10,12""/>
        <nationalNumberPattern>
          1(?:
            3(?:
              00\d{5}|
              45[0-4]
            )|
            802
";
   "          )\d{3}|
          1[38]00\d{6}|
          13\d{4}
        </nationalNumberPattern>
      </noInternationalDialling>
      <!-- Note: Excludes prefixes used by Cocos Islands and Christmas Islands. -->
      <fixedLine>
        <possibleLengths national=""9"" localOnly=""8""/>
        <exampleNumber>212345678</exampleNumber>
        <nationalNumberPattern>
          (?:
            (?:
              241|
              349
            )0\d\d|
            8(?:
              51(?:
                0(?:
                  0[03-9]|
                  [12479]\d|
                  3[2-9]|
                  5[0-8]|
                  6[1-9]|
                  8[0-7]
                )|
                1(?:
                  [0235689]\d|
                  1[0-69]|
                  4[0-589]|
                  7[0-47-9]
                )|
                2(?:
                  0[0-79]|
                  [18][13579]|
                  2[14-9]|
                  3[0-46-9]|
                  [4-6]\d|
                  7[89]|
                  9[0-4]
                )|
                [34]\d\d
              )|
              91(?:
                (?:
                  [0-58]\d|
                  6[0135-9]
                )\d|
                7(?:
                  0[0-24-9]|
                  [1-9]\d
                )|
                9(?:
                  [0-46-9]\d|
                  5[0-79]
                )
              )
            )
          )\d{3}|
          (?:
            2(?:
              [0-26-9]\d|
              3[0-8]|
              4[02-9]|
              5[0135-9]
            )|
            3(?:
              [0-3589]\d|
              4[0-578]|
              6[1-9]|
              7[0-35-9]
            )|
            7(?:
              [013-57-9]\d|
              2[0-8]
            )|
            8(?:
              55|
              6[0-8]|
              [78]\d|
              9[02-9]
            )
          )\d{6}
        </nationalNumberPattern>
      </fixedLine>
";
   "      <!-- Note CC and CX should be updated as well if this pattern changes. Maintaining three digit
           granularity of the ranges mentioned as *assigned* in:
           https://www.thenumberingsystem.com.au/download/EnhancedFullDownload.zip -->
      <mobile>
        <possibleLengths national=""9""/>
        <exampleNumber>412345678</exampleNumber>
        <nationalNumberPattern>
          4(?:
            79[01]|
            83[0-36-9]|
            95[0-3]
          )\d{5}|
          4(?:
            [0-36]\d|
            4[047-9]|
            [58][0-24-9]|
            7[02-8]|
            9[0-47-9]
          )\d{6}
        </nationalNumberPattern>
      </mobile>
      <pager>
        <possibleLengths national=""[5-9]""/>
        <exampleNumber>1631234</exampleNumber>
        <nationalNumberPattern>163\d{2,6}</nationalNumberPattern>
      </pager>
      <tollFree>
        <possibleLengths national=""7,10""/>
        <exampleNumber>1800123456</exampleNumber>
        <nationalNumberPattern>
          180(?:
            0\d{3}|
            2
          )\d{3}
        </nationalNumberPattern>
      </tollFree>
      <premiumRate>
        <possibleLengths national=""10""/>
        <exampleNumber>1900123456</exampleNumber>
        <nationalNumberPattern>190[0-26]\d{6}</nationalNumberPattern>
      </premiumRate>
      <!-- Lo";
   "cal-rate (SmartNumbers) are put here because they are a reverse-charge network,
           although they charge a small lo";
   "cal call connect fee (around 25c). These start with 13
           or 1300. Prefix 1300 of length 12 digit added based on user report. -->
      <sharedCost>
        <possibleLengths national=""6,8,10,12""/>
        <exampleNumber>1300123456</exampleNumber>
        <nationalNumberPattern>
          13(?:
            00\d{6}(?:
              \d{2}
            )?|
            45[0-4]\d{3}
          )|
          13\d{4}
        </nationalNumberPattern>
      </sharedCost>
      <!-- Includes MobileSat and Thuraya satellite services. According to the wikipedia page,
";
   "           other ranges 14[1-3] are not currently used. Supporting them here as VOIP is the closest
           match. -->
      <voip>
        <possibleLengths national=""9""/>
        <exampleNumber>147101234</exampleNumber>
        <nationalNumberPattern>
          14(?:
            5(?:
              1[0458]|
              [23][458]
            )|
            71\d
          )\d{4}
        </nationalNumberPattern>
      </voip>
    </territory>"];
  ["

    <!-- Aruba (AW) -->
    <!-- http://www.itu.int/oth/T020200000B/en -->
    <territory id=""AW"" countryCode=""297"" internationalPrefix=""00"">
      <availableFormats>
        <numberFormat pattern=""(\d{3})(\d{4})"">
          <leadingDigits>[25-9]</leadingDigits>
          <format>$1 $2</format>
        </numberFormat>
      </availableFormats>
      <generalDesc>
        <nationalNumberPattern>
          (?:
            [25-79]\d\d|
            800
          )\d{4}
        </nationalNumberPattern>
      </generalDesc>
      <fixedLine>
        <possibleLengths national=""7""/>
        <exampleNumber>5212345</exampleNumber>
        <nationalNumberPattern>
          5(?:
            2\d|
            8[1-9]
          )\d{4}
        </nationalNumberPattern>
      </fixedLine>
      <!-- The prefixes 994 and 96[45], while not in the plan, seem to be used in mobile numbers
           found online. -->
      <mobile>
        <possibleLengths national=""7""/>
        <exampleNumber>5601234</exampleNumber>
        <nationalNumberPattern>
          (?:
            290|
            5[69]\d|
            6(?:
              [03]0|
              22|
              4[0-2]|
              [69]\d
            )|
            7(?:
              [34]\d|
              7[07]
            )|
            9(?:
              6[45]|
              9[4-8]
            )
          )\d{4}
        </nationalNumberPattern>
      </mobile>
      <tollFree>
        <possibleLengths national=""7""/>
        <exampleNumber>8001234</exampleNumber>
        <nationalNumberPattern>800\d{4}</nationalNumberPattern>
      </tollFree>
      <premiumRate>
        <possibleLengths national=""7""/>
        <exampleNumber>9001234</exampleNumber>
        <nationalNumberPattern>900\d{4}</nationalNumberPattern>
      </premiumRate>
      <voip>
        <possibleLengths national=""7""/>
        <exampleNumber>5011234</exampleNumber>
        <nationalNumberPattern>
          (?:
            28\d|
            501
          )\d{4}
        </nationalNumberPattern>
";
   "      </voip>
    </territory>"];
  ["

    <!-- Åland Islands (AX) -->
    <!-- Calling code and formatting shared with 'FI' -->
    <!-- Adding all international carrier access codes in below doc that we found corroborating
         evidence for. Considering these are available in AX region as well.
         https://www.viestintavirasto.fi/en/internettelephone/numberingoftelecommunicationsnetworks/internationalcalls/internationalcarrieraccesscodes.html -->
    <!-- Not supporting national long distance carrier codes as these are overlapping with UAN
         ranges mentioned in ITU doc. -->
    <!-- https://www.viestintavirasto.fi/internetpuhelin/puhelinverkonnumerointi.html -->
    <territory id=""AX"" countryCode=""358"" leadingDigits=""18"" preferredInternationalPrefix=""00""
               internationalPrefix=""00|99(?:[01469]|5(?:[14]1|3[23]|5[59]|77|88|9[09]))""
               nationalPrefix=""0"">
      <generalDesc>
        <nationalNumberPattern>
          2\d{4,9}|
          35\d{4,5}|
          (?:
            60\d\d|
            800
          )\d{4,6}|
          7\d{5,11}|
          (?:
            [14]\d|
            3[0-46-9]|
            50
          )\d{4,8}
        </nationalNumberPattern>
      </generalDesc>
      <fixedLine>
        <possibleLengths national=""[6-9]""/>
        <exampleNumber>181234567</exampleNumber>
        <nationalNumberPattern>18[1-8]\d{3,6}</nationalNumberPattern>
      </fixedLine>
      <!-- The mobile, toll free, premium rate and UAN numbers are copied fr";
   "om Finland. -->
      <!-- Only 8, 9 and 10 digit numbers are possible as per www.viestintavirasto.fi's plan.
           Supporting other lengths based on user reports. -->
      <mobile>
        <possibleLengths national=""[6-10]""/>
        <exampleNumber>412345678</exampleNumber>
        <nationalNumberPattern>
          4946\d{2,6}|
          (?:
            4[0-8]|
            50
          )\d{4,8}
        </nationalNumberPattern>
      </mobile>
      <tollFree>
        <possibleLengths national=""[7-9]""/>
        <exampleNumber>800123456</exampleNumber>
";
   "        <nationalNumberPattern>800\d{4,6}</nationalNumberPattern>
      </tollFree>
      <premiumRate>
        <possibleLengths national=""8,9""/>
        <exampleNumber>600123456</exampleNumber>
        <nationalNumberPattern>[67]00\d{5,6}</nationalNumberPattern>
      </premiumRate>
      <!-- Covers nationwide non-geographic numbers, and nationwide ""service numbers"", typically
           assigned to institutions such as universities, the national post, etc, where they are
           not otherwise classified as toll-free or premium-rate numbers. -->
      <uan>
        <possibleLengths national=""[5-12]""/>
        <exampleNumber>10112345</exampleNumber>
        <nationalNumberPattern>
          20\d{4,8}|
          60[12]\d{5,6}|
          7(?:
            099\d{4,5}|
            5[03-9]\d{3,7}
          )|
          20[2-59]\d\d|
          (?:
            606|
            7(?:
              0[78]|
              1|
              3\d
            )
          )\d{7}|
          (?:
            10|
            29|
            3[09]|
            70[1-5]\d
          )\d{4,8}
        </nationalNumberPattern>
      </uan>
    </territory>"];
  ["

    <!-- Azerbaijan (AZ) -->
    <!-- http://www.itu.int/oth/T020200000F/en -->
    <territory id=""AZ"" countryCode=""994"" internationalPrefix=""00"" nationalPrefix=""0""
               mobileNumberPortableRegion=""true"">
      <availableFormats>
        <numberFormat pattern=""(\d{3})(\d{2})(\d{2})"">
          <leadingDigits>[1-9]</leadingDigits>
          <format>$1 $2 $3</format>
          <intlFormat>NA</intlFormat>
        </numberFormat>
        <!-- Premium rate (and maybe other special ranges). -->
        <numberFormat pattern=""(\d{3})(\d{2})(\d{2})(\d{2})"" nationalPrefixFormattingRule=""$NP$FG"">
          <leadingDigits>90</leadingDigits>
          <format>$1 $2 $3 $4</format>
        </numberFormat>
        <numberFormat pattern=""(\d{2})(\d{3})(\d{2})(\d{2})"" nationalPrefixFormattingRule=""($NP$FG)"">
          <leadingDigits>
            1[28]|
            2|
            365|
            46
          </leadingDigits>
          <leadingDigits>
            1[28]|
            2|
            365[45]|
            46
          </leadingDigits>
          <leadingDigits>
            1[28]|
            2|
            365(?:
              4|
              5[02]
            )|
            46
          </leadingDigits>
          <format>$1 $2 $3 $4</format>
        </numberFormat>
        <!-- ITU uses XX XXX XXXX for mobile numbers, but numbers online typically
             use XX XXX XX XX. -->
        <numberFormat pattern=""(\d{2})(\d{3})(\d{2})(\d{2})"" nationalPrefixFormattingRule=""$NP$FG"">
          <leadingDigits>[13-9]</leadingDigits>
          <format>$1 $2 $3 $4</format>
        </numberFormat>
      </availableFormats>
      <generalDesc>
        <nationalNumberPattern>
          365\d{6}|
          (?:
            [124579]\d|
            60|
            88
          )\d{7}
        </nationalNumberPattern>
      </generalDesc>
      <!-- 12109 fixed line numbers are mentioned as ""Information Operator Assistance""
           by ITU. Added it to fixedline numbers as whole 12 range numbers are fixedline
";
   "           numbers in Baku. -->
      <fixedLine>
        <possibleLengths national=""9"" localOnly=""7""/>
        <exampleNumber>123123456</exampleNumber>
        <nationalNumberPattern>
          (?:
            2[12]428|
            3655[02]
          )\d{4}|
          (?:
            2(?:
              22[0-79]|
              63[0-28]
            )|
            3654
          )\d{5}|
          (?:
            (?:
              1[28]|
              46
            )\d|
            2(?:
              [014-6]2|
              [23]3
            )
          )\d{6}
        </nationalNumberPattern>
      </fixedLine>
      <!-- Prefix 36554 is added to mobile as per confirmation fr";
   "om Ministry of
           Communications in Azerbaijan. -->
      <mobile>
        <possibleLengths national=""9""/>
        <exampleNumber>401234567</exampleNumber>
        <nationalNumberPattern>
          36554\d{4}|
          (?:
            [16]0|
            4[04]|
            5[015]|
            7[07]|
            99
          )\d{7}
        </nationalNumberPattern>
      </mobile>
      <!-- 88 is listed as fixed-line for Baku in the ITU document, but online numbers seem to
           suggest they are in fact national toll-free numbers. -->
      <tollFree>
        <possibleLengths national=""9""/>
        <exampleNumber>881234567</exampleNumber>
        <nationalNumberPattern>88\d{7}</nationalNumberPattern>
      </tollFree>
      <!-- These are marked as Interactive Calls in the ITU document. -->
      <premiumRate>
        <possibleLengths national=""9""/>
        <exampleNumber>900200123</exampleNumber>
        <nationalNumberPattern>900200\d{3}</nationalNumberPattern>
      </premiumRate>
    </territory>"];
  ["

    <!-- Bosnia & Herzegovina (BA) -->
    <!-- accessible fr";
   "om http://www.cra.ba/en/telecom/numbering/ -->
    <!-- http://www.rak.ba/eng/index.php?uid=1272016657 -->
    <!-- http://en.wikipedia.org/wiki/+387 -->
    <territory id=""BA"" countryCode=""387"" internationalPrefix=""00"" nationalPrefix=""0""
               mobileNumberPortableRegion=""true"">
      <availableFormats>
        <numberFormat pattern=""(\d{3})(\d{3})"">
          <leadingDigits>[2-9]</leadingDigits>
          <format>$1-$2</format>
          <intlFormat>NA</intlFormat>
        </numberFormat>
        <numberFormat pattern=""(\d{2})(\d{3})(\d{3})"" nationalPrefixFormattingRule=""$NP$FG"">
          <leadingDigits>
            6[1-3]|
            [7-9]
          </leadingDigits>
          <format>$1 $2 $3</format>
        </numberFormat>
        <numberFormat pattern=""(\d{2})(\d{3})(\d{3})"" nationalPrefixFormattingRule=""$NP$FG"">
          <leadingDigits>
            [3-5]|
            6[56]
          </leadingDigits>
          <format>$1 $2-$3</format>
        </numberFormat>
        <!-- 9-digit mobile. -->
        <numberFormat pattern=""(\d{2})(\d{2})(\d{2})(\d{3})"" nationalPrefixFormattingRule=""$NP$FG"">
          <leadingDigits>6</leadingDigits>
          <format>$1 $2 $3 $4</format>
        </numberFormat>
      </availableFormats>
      <generalDesc>
        <nationalNumberPattern>
          6\d{8}|
          (?:
            [35689]\d|
            49|
            70
          )\d{6}
        </nationalNumberPattern>
      </generalDesc>
      <!-- For easier maintenance, supporting ranges at 3 digit granularity vs 4 digit granular
           ranges mentioned in RAK's doc. -->
      <fixedLine>
        <possibleLengths national=""8"" localOnly=""6""/>
        <exampleNumber>30212345</exampleNumber>
        <nationalNumberPattern>
          (?:
            3(?:
              [05-79][2-9]|
              1[4579]|
              [23][24-9]|
              4[2-4689]|
              8[2457-9]
            )|
            49[2-579]|
";
   "            5(?:
              0[2-49]|
              [13][2-9]|
              [268][2-4679]|
              4[4689]|
              5[2-79]|
              7[2-69]|
              9[2-4689]
            )
          )\d{5}
        </nationalNumberPattern>
      </fixedLine>
      <mobile>
        <possibleLengths national=""8,9""/>
        <exampleNumber>61123456</exampleNumber>
        <nationalNumberPattern>
          6040\d{5}|
          6(?:
            03|
            [1-356]|
            44|
            7\d
          )\d{6}
        </nationalNumberPattern>
      </mobile>
      <tollFree>
        <possibleLengths national=""8""/>
        <exampleNumber>80123456</exampleNumber>
        <nationalNumberPattern>8[08]\d{6}</nationalNumberPattern>
      </tollFree>
      <premiumRate>
        <possibleLengths national=""8""/>
        <exampleNumber>90123456</exampleNumber>
        <nationalNumberPattern>9[0246]\d{6}</nationalNumberPattern>
      </premiumRate>
      <!-- Using this category to model national tariff numbers - these are under Shared Cost in
           the plan. -->
      <sharedCost>
        <possibleLengths national=""8""/>
        <exampleNumber>82123456</exampleNumber>
        <nationalNumberPattern>8[12]\d{6}</nationalNumberPattern>
      </sharedCost>
      <!-- Using this to classify nomad numbers. 702[0-4] ranges are no longer mentioned in
           official RAK's doc (Dated 21-11-2017). For easier maintenance, supporting ranges at 4
           digit granularity vs 4 and 5 digit granular ranges mentioned in RAK's doc. -->
      <uan>
        <possibleLengths national=""8""/>
        <exampleNumber>70341234</exampleNumber>
        <nationalNumberPattern>
          703[235]0\d{3}|
          70(?:
            2[0-5]|
            3[0146]|
            [56]0
          )\d{4}
        </nationalNumberPattern>
      </uan>
    </territory>"];
  ["

    <!-- Barbados (BB) -->
    <!-- Calling code and formatting shared with 'US' -->
    <!-- http://www.itu.int/oth/T0202000013/en -->
    <territory id=""BB"" countryCode=""1"" leadingDigits=""246"" internationalPrefix=""011""
               nationalPrefix=""1"" nationalPrefixForParsing=""([2-9]\d{6})$|1""
               nationalPrefixTransformRule=""246$1"" mobileNumberPortableRegion=""true"">
      <generalDesc>
        <nationalNumberPattern>
          (?:
            246|
            [58]\d\d|
            900
          )\d{7}
        </nationalNumberPattern>
      </generalDesc>
      <!-- Fixed Telephony (ATM/IP) and Fixed Wireless phone numbers are supported here. -->
      <fixedLine>
        <possibleLengths national=""10"" localOnly=""7""/>
        <exampleNumber>2464123456</exampleNumber>
        <nationalNumberPattern>
          246521[0369]\d{3}|
          246(?:
            2(?:
              2[78]|
              7[0-4]
            )|
            4(?:
              1[024-6]|
              2\d|
              3[2-9]
            )|
            5(?:
              20|
              [34]\d|
              54|
              7[1-3]
            )|
            6(?:
              2\d|
              38
            )|
            7[35]7|
            9(?:
              1[89]|
              63
            )
          )\d{4}
        </nationalNumberPattern>
      </fixedLine>
      <mobile>
        <possibleLengths national=""10"" localOnly=""7""/>
        <exampleNumber>2462501234</exampleNumber>
        <nationalNumberPattern>
          246(?:
            (?:
              2(?:
                [3568]\d|
                4[0-57-9]
              )|
              3(?:
                5[2-9]|
                6[0-6]
              )|
              4(?:
                46|
                5\d
              )|
              69[5-7]|
              8(?:
                [2-5]\d|
                83
              )
            )\d|
            52(?:
              1[147]|
              20
            )
";
   "          )\d{3}
        </nationalNumberPattern>
      </mobile>
      <tollFree>
        <possibleLengths national=""10""/>
        <exampleNumber>8002123456</exampleNumber>
        <nationalNumberPattern>
          8(?:
            00|
            33|
            44|
            55|
            66|
            77|
            88
          )[2-9]\d{6}
        </nationalNumberPattern>
      </tollFree>
      <premiumRate>
        <possibleLengths national=""10"" localOnly=""7""/>
        <exampleNumber>9002123456</exampleNumber>
        <nationalNumberPattern>
          (?:
            246976|
            900[2-9]\d\d
          )\d{4}
        </nationalNumberPattern>
      </premiumRate>
      <!-- https://www.nationalnanpa.com/number_resource_info/5XX_codes.html -->
      <personalNumber>
        <possibleLengths national=""10""/>
        <exampleNumber>5002345678</exampleNumber>
        <nationalNumberPattern>
          52(?:
            3(?:
              [2-46-9][02-9]\d|
              5(?:
                [02-46-9]\d|
                5[0-46-9]
              )
            )|
            4(?:
              [2-478][02-9]\d|
              5(?:
                [034]\d|
                2[024-9]|
                5[0-46-9]
              )|
              6(?:
                0[1-9]|
                [2-9]\d
              )|
              9(?:
                [05-9]\d|
                2[0-5]|
                49
              )
            )
          )\d{4}|
          52[34][2-9]1[02-9]\d{4}|
          5(?:
            00|
            2[125-9]|
            3[23]|
            44|
            66|
            77|
            88
          )[2-9]\d{6}
        </nationalNumberPattern>
      </personalNumber>
      <voip>
        <possibleLengths national=""10"" localOnly=""7""/>
        <exampleNumber>2463101234</exampleNumber>
        <nationalNumberPattern>24631\d{5}</nationalNumberPattern>
      </voip>
      <!-- Call Centres, CENTREX and Direct Inward Dialling (DID) prefixes have been added under
";
   "           uan. -->
      <uan>
        <possibleLengths national=""10"" localOnly=""7""/>
        <exampleNumber>2464301234</exampleNumber>
        <nationalNumberPattern>
          246(?:
            292|
            367|
            4(?:
              1[7-9]|
              3[01]|
              4[47-9]|
              67
            )|
            7(?:
              1[2-9]|
              2\d|
              3[016]|
              53
            )
          )\d{4}
        </nationalNumberPattern>
      </uan>
    </territory>"];
  ["

    <!-- Bangladesh (BD) -->
    <!-- As per official evidence, 001 and 002 can be used for International dialing covering toll
         quality and non-toll quality services. But these are not in use according to our tests
         (see b/29552679). -->
    <!-- http://www.itu.int/oth/T0202000012/en -->
    <!-- http://en.wikipedia.org/wiki/Telephone_numbers_in_Bangladesh -->
    <!-- http://www.btrc.gov.bd/national-numbering-plan -->
    <territory id=""BD"" countryCode=""880"" internationalPrefix=""00"" nationalPrefix=""0"">
      <availableFormats>
        <numberFormat pattern=""(\d{2})(\d{4,6})"" nationalPrefixFormattingRule=""$NP$FG"">
          <leadingDigits>
            31[5-8]|
            [459]1
          </leadingDigits>
          <format>$1-$2</format>
        </numberFormat>
        <numberFormat pattern=""(\d{3})(\d{3,7})"" nationalPrefixFormattingRule=""$NP$FG"">
          <leadingDigits>
            3(?:
              [67]|
              8[013-9]
            )|
            4(?:
              6[168]|
              7|
              [89][18]
            )|
            5(?:
              6[128]|
              9
            )|
            6(?:
              [15]|
              28|
              4[14]
            )|
            7[2-589]|
            8(?:
              0[014-9]|
              [12]
            )|
            9[358]|
            (?:
              3[2-5]|
              4[235]|
              5[2-578]|
              6[0389]|
              76|
              8[3-7]|
              9[24]
            )1|
            (?:
              44|
              66
            )[01346-9]
          </leadingDigits>
          <format>$1-$2</format>
        </numberFormat>
        <!-- Mobile numbers, VOIP, and four-digit fixed-line area codes. We use the same format for
             all VOIP numbers as they are not consistent and these ranges are assigned at 4 digit
             granularity. -->
        <numberFormat pattern=""(\d{4})(\d{3,6})"" nationalPrefixFormattingRule=""$NP$FG"">
";
   "          <leadingDigits>
            [13-9]|
            2[23]
          </leadingDigits>
          <format>$1-$2</format>
        </numberFormat>
        <numberFormat pattern=""(\d)(\d{7,8})"" nationalPrefixFormattingRule=""$NP$FG"">
          <leadingDigits>2</leadingDigits>
          <format>$1-$2</format>
        </numberFormat>
      </availableFormats>
      <generalDesc>
        <nationalNumberPattern>
          [1-469]\d{9}|
          8[0-79]\d{7,8}|
          [2-79]\d{8}|
          [2-9]\d{7}|
          [3-9]\d{6}|
          [57-9]\d{5}
        </nationalNumberPattern>
      </generalDesc>
      <!-- It might be that lengths 6-8 are lo";
   "cal numbers only. Documentation is poor on
           Bangladesh numbers. -->
      <!-- There was a plan to move to 10 digit fixed-line numbers, but this does not seem to have
           been realised, judging by online numbers and wikipedia. These patterns are grouped
           first by leading digit, then within by number of digits. Several Dhaka prefixes(02 731,
           02 890, 02 910, 02 550 etc.) are included despite not being mentioned on Wikipedia /
           ITU due to online evidence. Another oddity is Chittagong - some numbers have a leading
           2, others do not - both are allowed for now. For some area codes, the subscriber number
           length described in our source documentation doesn't match numbers online (e.g. 05222)
           so we allow both for now. (This applies to 0431, 04329, 04623, 05327 as well). We have
           also added 04452 and 04923 fr";
   "om numbers found online. Included prefixes 2778, 2841, 2893,
           2963, 298[59] and 4462 as per user report. 9-digit 24 and 25 prefix numbers were added
           based on user reports, although a doc fr";
   "om BRTC mentions that they are 10-digit numbers,
           which we think might be a typo. -->
      <fixedLine>
        <possibleLengths national=""[6-10]""/>
        <exampleNumber>27111234</exampleNumber>
        <nationalNumberPattern>
          (?:
";
   "            4(?:
              31\d\d|
              423
            )|
            5222
          )\d{3}(?:
            \d{2}
          )?|
          8332[6-9]\d\d|
          (?:
            3(?:
              03[56]|
              224
            )|
            4(?:
              22[25]|
              653
            )
          )\d{3,4}|
          (?:
            3(?:
              42[47]|
              529|
              823
            )|
            4(?:
              027|
              525|
              65(?:
                28|
                8
              )
            )|
            562|
            6257|
            7(?:
              1(?:
                5[3-5]|
                6[12]|
                7[156]|
                89
              )|
              22[589]56|
              32|
              42675|
              52(?:
                [25689](?:
                  56|
                  8
                )|
                [347]8
              )|
              71(?:
                6[1267]|
                75|
                89
              )|
              92374
            )|
            82(?:
              2[59]|
              32
            )56|
            9(?:
              03[23]56|
              23(?:
                256|
                373
              )|
              31|
              5(?:
                1|
                2[4589]56
              )
            )
          )\d{3}|
          (?:
            3(?:
              02[348]|
              22[35]|
              324|
              422
            )|
            4(?:
              22[67]|
              32[236-9]|
              6(?:
                2[46]|
                5[57]
              )|
              953
            )|
            5526|
            6(?:
              024|
              6655
            )|
            81
          )\d{4,5}|
          (?:
            2(?:
              7(?:
                1[0-267]|
                2[0-289]|
                3[0-29]|
                4[01]|
";
   "                5[1-3]|
                6[013]|
                7[0178]|
                91
              )|
              8(?:
                0[125]|
                1[1-6]|
                2[0157-9]|
                3[1-69]|
                41|
                6[1-35]|
                7[1-5]|
                8[1-8]|
                9[0-6]
              )|
              9(?:
                0[0-2]|
                1[0-4]|
                2[568]|
                3[3-6]|
                5[5-7]|
                6[0136-9]|
                7[0-7]|
                8[014-9]
              )
            )|
            3(?:
              0(?:
                2[025-79]|
                3[2-4]
              )|
              181|
              22[12]|
              32[2356]|
              824
            )|
            4(?:
              02[09]|
              22[348]|
              32[045]|
              523|
              6(?:
                27|
                54
              )
            )|
            666(?:
              22|
              53
            )|
            7(?:
              22[57-9]|
              42[56]|
              82[35]
            )8|
            8(?:
              0[124-9]|
              2(?:
                181|
                2[02-4679]8
              )|
              4[12]|
              [5-7]2
            )|
            9(?:
              [04]2|
              2(?:
                2|
                328
              )|
              81
            )
          )\d{4}|
          (?:
            2(?:
              [23]\d|
              [45]
            )\d\d|
            3(?:
              1(?:
                2[5-7]|
                [5-7]
              )|
              425|
              822
            )|
            4(?:
              033|
              1\d|
              [257]1|
              332|
              4(?:
                2[246]|
                5[25]
              )|
              6(?:
                2[35]|
                56|
                62
";
   "              )|
              8(?:
                23|
                54
              )|
              92[2-5]
            )|
            5(?:
              02[03489]|
              22[457]|
              32[35-79]|
              42[46]|
              6(?:
                [18]|
                53
              )|
              724|
              826
            )|
            6(?:
              023|
              2(?:
                2[2-5]|
                5[3-5]|
                8
              )|
              32[3478]|
              42[34]|
              52[47]|
              6(?:
                [18]|
                6(?:
                  2[34]|
                  5[24]
                )
              )|
              [78]2[2-5]|
              92[2-6]
            )|
            7(?:
              02|
              21\d|
              [3-589]1|
              6[12]|
              72[24]
            )|
            8(?:
              217|
              3[12]|
              [5-7]1
            )|
            9[24]1
          )\d{5}|
          (?:
            (?:
              3[2-8]|
              5[2-57-9]|
              6[03-589]
            )1|
            4[4689][18]
          )\d{5}|
          [59]1\d{5}
        </nationalNumberPattern>
      </fixedLine>
      <!-- Presuming that mobile numbers with the prefixes 66, 37, 44 and 38 must be followed by
           numbers [02-9] or they would clash with fixed-line codes. According to the plan, mobile
           numbers should be moving to 1[13-9] anyway. -->
      <mobile>
        <possibleLengths national=""10""/>
        <exampleNumber>1812345678</exampleNumber>
        <nationalNumberPattern>
          (?:
            1[13-9]\d|
            644
          )\d{7}|
          (?:
            3[78]|
            44|
            66
          )[02-9]\d{7}
        </nationalNumberPattern>
      </mobile>
      <!-- Note: Including Tele-voting numbers here as they are free of charge. -->
      <tollFree>
        <possibleLengths national=""10""/>
";
   "        <exampleNumber>8001234567</exampleNumber>
        <nationalNumberPattern>80[03]\d{7}</nationalNumberPattern>
      </tollFree>
      <!-- Prefix 9643 added as per user report. -->
      <voip>
        <possibleLengths national=""10""/>
        <exampleNumber>9604123456</exampleNumber>
        <nationalNumberPattern>
          96(?:
            0[469]|
            1[0-47]|
            3[389]|
            43|
            6[69]|
            7[78]
          )\d{6}
        </nationalNumberPattern>
      </voip>
    </territory>"];
  ["

    <!-- Belgium (BE) -->
    <!-- https://www.bipt.be/operatoren/publicatie/nationaal-nummeringsplan -->
    <!-- https://www.bipt.be/operatoren/publicatie/databank-gereserveerde-en-toegewezen-nummers -->
    <!-- http://en.wikipedia.org/wiki/Telephone_numbers_in_Belgium -->
    <territory id=""BE"" countryCode=""32"" internationalPrefix=""00"" nationalPrefix=""0""
               mobileNumberPortableRegion=""true"">
      <availableFormats>
        <numberFormat pattern=""(\d{3})(\d{2})(\d{3})"" nationalPrefixFormattingRule=""$NP$FG"">
          <leadingDigits>
            (?:
              80|
              9
            )0
          </leadingDigits>
          <format>$1 $2 $3</format>
        </numberFormat>
        <numberFormat pattern=""(\d)(\d{3})(\d{2})(\d{2})"" nationalPrefixFormattingRule=""$NP$FG"">
          <leadingDigits>
            [239]|
            4[23]
          </leadingDigits>
          <format>$1 $2 $3 $4</format>
        </numberFormat>
        <numberFormat pattern=""(\d{2})(\d{2})(\d{2})(\d{2})"" nationalPrefixFormattingRule=""$NP$FG"">
          <leadingDigits>[15-8]</leadingDigits>
          <format>$1 $2 $3 $4</format>
        </numberFormat>
        <numberFormat pattern=""(\d{3})(\d{2})(\d{2})(\d{2})"" nationalPrefixFormattingRule=""$NP$FG"">
          <leadingDigits>4</leadingDigits>
          <format>$1 $2 $3 $4</format>
        </numberFormat>
      </availableFormats>
      <generalDesc>
        <nationalNumberPattern>
          4\d{8}|
          [1-9]\d{7}
        </nationalNumberPattern>
      </generalDesc>
      <fixedLine>
        <possibleLengths national=""8""/>
        <exampleNumber>12345678</exampleNumber>
        <nationalNumberPattern>
          80[2-8]\d{5}|
          (?:
            1[0-69]|
            [23][2-8]|
            4[23]|
            5\d|
            6[013-57-9]|
            71|
            8[1-79]|
            9[2-4]
          )\d{6}
        </nationalNumberPattern>
      </fixedLine>
      <mobile>
        <possibleLengths national=""9""/>
";
   "        <exampleNumber>450001234</exampleNumber>
        <nationalNumberPattern>4[5-9]\d{7}</nationalNumberPattern>
      </mobile>
      <tollFree>
        <possibleLengths national=""8""/>
        <exampleNumber>80012345</exampleNumber>
        <nationalNumberPattern>800[1-9]\d{4}</nationalNumberPattern>
      </tollFree>
      <premiumRate>
        <possibleLengths national=""8""/>
        <exampleNumber>90012345</exampleNumber>
        <nationalNumberPattern>
          (?:
            70(?:
              2[0-57]|
              3[04-7]|
              44|
              6[04-69]|
              7[0579]
            )|
            90\d\d
          )\d{4}
        </nationalNumberPattern>
      </premiumRate>
      <sharedCost>
        <possibleLengths national=""8""/>
        <exampleNumber>78791234</exampleNumber>
        <nationalNumberPattern>7879\d{4}</nationalNumberPattern>
      </sharedCost>
      <!-- 78X numbers are nomadic and standard rate as per voipgate.com and Wikipedia. And these
           are customer care numbers as per online results. Supporting here as UAN is closest
           match. http://www.voipgate.com/site/news/newsflash/new-numbers-available-the-netherlands-and-austria.html -->
      <uan>
        <possibleLengths national=""8""/>
        <exampleNumber>78102345</exampleNumber>
        <nationalNumberPattern>
          78(?:
            0[578]|
            1[014-8]|
            2[25]|
            3[15-8]|
            48|
            5[05]|
            60|
            7[06-8]|
            9\d
          )\d{4}
        </nationalNumberPattern>
      </uan>
    </territory>"];
  ["

    <!-- Burkina Faso (BF) -->
    <!-- http://www.itu.int/oth/T0202000021/en -->
    <!-- http://www.onatel.bf/plan-national-de-numerotation.aspx -->
    <territory id=""BF"" countryCode=""226"" internationalPrefix=""00"">
      <availableFormats>
        <!-- The national numbering plan fr";
   "om ITU suggests grouping of 2, 2 and 4, but we have
             chosen to use the standard fr";
   "om numbers found on the internet instead. -->
        <numberFormat pattern=""(\d{2})(\d{2})(\d{2})(\d{2})"">
          <leadingDigits>[024-7]</leadingDigits>
          <format>$1 $2 $3 $4</format>
        </numberFormat>
      </availableFormats>
      <generalDesc>
        <nationalNumberPattern>[024-7]\d{7}</nationalNumberPattern>
      </generalDesc>
      <fixedLine>
        <possibleLengths national=""8""/>
        <exampleNumber>20491234</exampleNumber>
        <nationalNumberPattern>
          2(?:
            0(?:
              49|
              5[23]|
              6[5-7]|
              9[016-9]
            )|
            4(?:
              4[569]|
              5[4-6]|
              6[5-7]|
              7[0179]
            )|
            5(?:
              [34]\d|
              50|
              6[5-8]
            )
          )\d{4}
        </nationalNumberPattern>
      </fixedLine>
      <mobile>
        <possibleLengths national=""8""/>
        <exampleNumber>70123456</exampleNumber>
        <nationalNumberPattern>
          (?:
            0[1-7]|
            4[4-6]|
            5[0-8]|
            [67]\d
          )\d{6}
        </nationalNumberPattern>
      </mobile>
    </territory>"];
  ["

    <!-- Bulgaria (BG) -->
    <!-- http://www.itu.int/oth/T0202000020/en -->
    <!-- https://en.wikipedia.org/wiki/Telephone_numbers_in_Bulgaria -->
    <territory id=""BG"" countryCode=""359"" internationalPrefix=""00"" nationalPrefix=""0""
               mobileNumberPortableRegion=""true"">
      <availableFormats>
        <!-- 6-digit shortcodes. -->
        <numberFormat pattern=""(\d{6})"">
          <leadingDigits>1</leadingDigits>
          <format>$1</format>
          <intlFormat>NA</intlFormat>
        </numberFormat>
        <!-- Formatting rules follow the conventions seen in web-search results. A space has been
             used to separate the area code fr";
   "om the rest of the number, based on sites like
             http://www.goldenpages.bg. -->
        <numberFormat pattern=""(\d)(\d)(\d{2})(\d{2})"" nationalPrefixFormattingRule=""$NP$FG"">
          <leadingDigits>2</leadingDigits>
          <format>$1 $2 $3 $4</format>
        </numberFormat>
        <numberFormat pattern=""(\d{3})(\d{4})"" nationalPrefixFormattingRule=""$NP$FG"">
          <leadingDigits>
            43[1-6]|
            70[1-9]
          </leadingDigits>
          <format>$1 $2</format>
        </numberFormat>
        <numberFormat pattern=""(\d)(\d{3})(\d{3,4})"" nationalPrefixFormattingRule=""$NP$FG"">
          <leadingDigits>2</leadingDigits>
          <format>$1 $2 $3</format>
        </numberFormat>
        <numberFormat pattern=""(\d{2})(\d{3})(\d{2,3})"" nationalPrefixFormattingRule=""$NP$FG"">
          <leadingDigits>
            [356]|
            4[124-7]|
            7[1-9]|
            8[1-6]|
            9[1-7]
          </leadingDigits>
          <format>$1 $2 $3</format>
        </numberFormat>
        <!-- Personal numbers & toll free. -->
        <numberFormat pattern=""(\d{3})(\d{2})(\d{3})"" nationalPrefixFormattingRule=""$NP$FG"">
          <leadingDigits>
            (?:
              70|
              8
            )0
          </leadingDigits>
          <format>$1 $2 $3</format>
        </numberFormat>
";
   "        <numberFormat pattern=""(\d{3})(\d{3})(\d{2})"" nationalPrefixFormattingRule=""$NP$FG"">
          <leadingDigits>
            43[1-7]|
            7
          </leadingDigits>
          <format>$1 $2 $3</format>
        </numberFormat>
        <!-- Mobile and premium rate. -->
        <numberFormat pattern=""(\d{2})(\d{3})(\d{3,4})"" nationalPrefixFormattingRule=""$NP$FG"">
          <leadingDigits>
            [48]|
            9[08]
          </leadingDigits>
          <format>$1 $2 $3</format>
        </numberFormat>
        <numberFormat pattern=""(\d{3})(\d{3})(\d{3})"" nationalPrefixFormattingRule=""$NP$FG"">
          <leadingDigits>9</leadingDigits>
          <format>$1 $2 $3</format>
        </numberFormat>
      </availableFormats>
      <generalDesc>
        <nationalNumberPattern>
          00800\d{7}|
          [2-7]\d{6,7}|
          [89]\d{6,8}|
          2\d{5}
        </nationalNumberPattern>
      </generalDesc>
      <!-- We found evidence at least for ranges 28 and 29 followed by 4 digits in 2016, although
           the latest ITU doc doesn't mention that. -->
      <fixedLine>
        <possibleLengths national=""[6-8]"" localOnly=""4,5""/>
        <exampleNumber>2123456</exampleNumber>
        <nationalNumberPattern>
          2\d{5,7}|
          (?:
            43[1-6]|
            70[1-9]
          )\d{4,5}|
          (?:
            [36]\d|
            4[124-7]|
            [57][1-9]|
            8[1-6]|
            9[1-7]
          )\d{5,6}
        </nationalNumberPattern>
      </fixedLine>
      <!-- The range 99\d{7} is marked as mobile in the ITU doc, but only 996 and 999 seem to be in
           use, the former based on user reports and online numbers, and the latter based on
           wikipedia and information received fr";
   "om MAX telecom. -->
      <mobile>
        <possibleLengths national=""8,9""/>
        <exampleNumber>43012345</exampleNumber>
        <nationalNumberPattern>
          (?:
            43[07-9]|
            99[69]\d
          )\d{5}|
";
   "          (?:
            8[7-9]|
            98
          )\d{7}
        </nationalNumberPattern>
      </mobile>
      <tollFree>
        <possibleLengths national=""8,12""/>
        <exampleNumber>80012345</exampleNumber>
        <nationalNumberPattern>
          (?:
            00800\d\d|
            800
          )\d{5}
        </nationalNumberPattern>
      </tollFree>
      <premiumRate>
        <possibleLengths national=""8""/>
        <exampleNumber>90123456</exampleNumber>
        <nationalNumberPattern>90\d{6}</nationalNumberPattern>
      </premiumRate>
      <!-- Prefix 700 is marked as Personal number in the ITU doc, but as per many websites they
           are shared cost and are charged at a standard price. -->
      <sharedCost>
        <possibleLengths national=""8""/>
        <exampleNumber>70012345</exampleNumber>
        <nationalNumberPattern>700\d{5}</nationalNumberPattern>
      </sharedCost>
    </territory>"];
  ["

    <!-- Bahrain (BH) -->
    <!-- http://www.itu.int/oth/T0202000011/en -->
    <!-- http://www.tra.org.bh/en/marketNumbering.aspx -->
    <!-- http://en.wikipedia.org/wiki/Telephone_numbers_in_Bahrain -->
    <territory id=""BH"" countryCode=""973"" internationalPrefix=""00"" mobileNumberPortableRegion=""true"">
      <availableFormats>
        <numberFormat pattern=""(\d{4})(\d{4})"">
          <leadingDigits>
            [13679]|
            8[02-4679]
          </leadingDigits>
          <format>$1 $2</format>
        </numberFormat>
      </availableFormats>
      <generalDesc>
        <nationalNumberPattern>[136-9]\d{7}</nationalNumberPattern>
      </generalDesc>
      <!-- Some ranges were previously described as ""universal"", but in subsequent versions of the
           ITU doc they have been specified to be mobile or fixed-line. We follow the ITU
           designations, even though some publications still refer to them as universal. -->
      <!-- According to http://en.wikipedia.org/wiki/Telephone_numbers_in_Bahrain, the ranges
           ""6966-6969, 6996, 6999"" are assigned to Rapid. However this contradicts the ITU doc
           which lists ""6966, 6969, 6996, 6999"". We follow ITU here. -->
      <fixedLine>
        <possibleLengths national=""8""/>
        <exampleNumber>17001234</exampleNumber>
        <nationalNumberPattern>
          (?:
            1(?:
              3[1356]|
              6[0156]|
              7\d
            )\d|
            6(?:
              1[16]\d|
              500|
              6(?:
                0\d|
                3[12]|
                44|
                55|
                7[7-9]|
                88
              )|
              9[69][69]
            )|
            7(?:
              [07]\d\d|
              1(?:
                11|
                78
              )
            )
          )\d{4}
        </nationalNumberPattern>
      </fixedLine>
      <!-- 31 is assigned to Royal Court, as per documents on Bahrain's own telecom site, even
";
   "           though it is omitted fr";
   "om the ITU document. Based on online evidences added prefix
           354 to mobile. -->
      <mobile>
        <possibleLengths national=""8""/>
        <exampleNumber>36001234</exampleNumber>
        <nationalNumberPattern>
          (?:
            3(?:
              [0-79]\d|
              8[0-57-9]
            )\d|
            6(?:
              3(?:
                00|
                33|
                6[16]
              )|
              441|
              6(?:
                3[03-9]|
                [69]\d|
                7[0-689]
              )
            )
          )\d{4}
        </nationalNumberPattern>
      </mobile>
      <tollFree>
        <possibleLengths national=""8""/>
        <exampleNumber>80123456</exampleNumber>
        <nationalNumberPattern>8[02369]\d{6}</nationalNumberPattern>
      </tollFree>
      <!-- 87 numbers are ""wholly paid by the caller"", so they are slotted under premium-rate for
           now. -->
      <premiumRate>
        <possibleLengths national=""8""/>
        <exampleNumber>90123456</exampleNumber>
        <nationalNumberPattern>
          (?:
            87|
            9[0-8]
          )\d{6}
        </nationalNumberPattern>
      </premiumRate>
      <sharedCost>
        <possibleLengths national=""8""/>
        <exampleNumber>84123456</exampleNumber>
        <nationalNumberPattern>84\d{6}</nationalNumberPattern>
      </sharedCost>
    </territory>"];
  ["

    <!-- Burundi (BI) -->
    <!-- http://www.itu.int/oth/T0202000022/en -->
    <territory id=""BI"" countryCode=""257"" internationalPrefix=""00"">
      <availableFormats>
        <numberFormat pattern=""(\d{2})(\d{2})(\d{2})(\d{2})"">
          <leadingDigits>[2367]</leadingDigits>
          <format>$1 $2 $3 $4</format>
        </numberFormat>
      </availableFormats>
      <generalDesc>
        <nationalNumberPattern>
          (?:
            [267]\d|
            31
          )\d{6}
        </nationalNumberPattern>
      </generalDesc>
      <!-- ITU update 17.IV.2015 assigns 22X completely to Onatel fixed line. Earlier  ITU
           updates (11.IX.2013) were more detailed in that range and only half of it was
           assigned. Erring on the side of ITU and lenience for now, but we may have to make the
           range stricter again. -->
      <fixedLine>
        <possibleLengths national=""8""/>
        <exampleNumber>22201234</exampleNumber>
        <nationalNumberPattern>
          (?:
            22|
            31
          )\d{6}
        </nationalNumberPattern>
      </fixedLine>
      <!-- Previous ITU doc (version: 11.IX.2013) says 29 range is assigned to
           ""UCOM CDMA network"". As there is valid number online continuing support to this range
           eventhough it is not listed in new ITU doc (version: 12.IV.2018). -->
      <mobile>
        <possibleLengths national=""8""/>
        <exampleNumber>79561234</exampleNumber>
        <nationalNumberPattern>
          (?:
            29|
            6[1-9]|
            7[125-9]
          )\d{6}
        </nationalNumberPattern>
      </mobile>
    </territory>"];
  ["

    <!-- Benin (BJ) -->
    <!-- http://www.itu.int/oth/T0202000017/en -->
    <!-- https://arcep.bj/les-ressources-en-numerotation/ -->
    <territory id=""BJ"" countryCode=""229"" internationalPrefix=""00"" mobileNumberPortableRegion=""true"">
      <availableFormats>
        <numberFormat pattern=""(\d{2})(\d{2})(\d{2})(\d{2})"">
          <leadingDigits>8</leadingDigits>
          <format>$1 $2 $3 $4</format>
        </numberFormat>
        <numberFormat pattern=""(\d{2})(\d{2})(\d{2})(\d{2})(\d{2})"">
          <leadingDigits>0</leadingDigits>
          <format>$1 $2 $3 $4 $5</format>
        </numberFormat>
      </availableFormats>
      <generalDesc>
        <nationalNumberPattern>
          (?:
            01\d|
            8
          )\d{7}
        </nationalNumberPattern>
      </generalDesc>
      <!-- These come fr";
   "om the national numbering plan, but have been widened to in";
   "clude other
           prefixes found in the yellow pages - specifically 21 0. -->
      <fixedLine>
        <possibleLengths national=""10""/>
        <exampleNumber>0120211234</exampleNumber>
        <nationalNumberPattern>012\d{7}</nationalNumberPattern>
      </fixedLine>
      <!-- We have restricted the pattern here to the first two digits, as beyond this the data
           seems to be no longer accurate. The latest ITU doc (2005) lists 9[0357] and lists
           other 9x and the complete 6x range as reserved. The prefixes 96 have also been added,
           along with 6[1267] (seemingly prefixes for Mobile MTN). -->
      <mobile>
        <possibleLengths national=""10""/>
        <exampleNumber>0195123456</exampleNumber>
        <nationalNumberPattern>
          01(?:
            2[5-9]|
            [4-69]\d
          )\d{6}
        </nationalNumberPattern>
      </mobile>
      <voip>
        <possibleLengths national=""8""/>
        <exampleNumber>85751234</exampleNumber>
        <nationalNumberPattern>857[58]\d{4}</nationalNumberPattern>
      </voip>
      <!-- Numbers beginning with 81 are reserved for _either_ free phone or shared-cost (same cost
";
   "           as a lo";
   "cal-call.) We model these as UAN since we have no more detailed information. -->
      <uan>
        <possibleLengths national=""8""/>
        <exampleNumber>81123456</exampleNumber>
        <nationalNumberPattern>81\d{6}</nationalNumberPattern>
      </uan>
    </territory>"];
  ["

    <!-- St. Barthélemy (BL) -->
    <!-- Calling code and formatting shared with 'GP' -->
    <!-- There seems to be some overlap with phone numbers fr";
   "om Saint Martin and Guadeloupe. The
         national numbering plan does not specify any St Barthélemy-specific numbering prefixes, but
         it appears fr";
   "om searches in online white and yellow pages that a subset of the prefixes
         available in these regions are used. In these cases, if getRegionCodeForNumber is used, one
         of these region codes will be returned, although numbers will be valid for both regions. -->
    <!-- http://www.itu.int/oth/T0202000058/en -->
    <!-- https://extranet.arcep.fr/portail/Op%C3%A9rateursCE/Num%C3%A9rotation.aspx -->
    <territory id=""BL"" countryCode=""590"" internationalPrefix=""00"" nationalPrefix=""0""
               mobileNumberPortableRegion=""true"">
      <generalDesc>
        <nationalNumberPattern>
          7090\d{5}|
          (?:
            [56]9|
            [89]\d
          )\d{7}
        </nationalNumberPattern>
      </generalDesc>
      <fixedLine>
        <possibleLengths national=""9""/>
        <exampleNumber>590271234</exampleNumber>
        <nationalNumberPattern>
          (?:
            59(?:
              0(?:
                2[7-9]|
                3[3-7]|
                5[12]|
                87
              )|
              87\d
            )|
            80[6-9]\d\d
          )\d{4}
        </nationalNumberPattern>
      </fixedLine>
      <!-- Any ranges assigned fr";
   "om
           http://www.arcep.fr/index.php?id=interactivenumeros have been listed as belonging to
           Guadeloupe, St Martin and St Barthélemy, since we can't reliably distinguish between
           them. As per Wikipedia Guadeloupe Téléphone Mobile operator is no longer functioning.
           However we support these ranges as they are still mentioned in ARCEP numbering plan
           doc. -->
      <mobile>
        <possibleLengths national=""9""/>
        <exampleNumber>690001234</exampleNumber>
";
   "        <nationalNumberPattern>
          (?:
            69(?:
              0\d\d|
              1(?:
                2[2-9]|
                3[0-5]
              )
            )|
            7090[0-4]
          )\d{4}
        </nationalNumberPattern>
      </mobile>
      <!-- As per ARCEP, mainland France and overseas territories use 0800 to 0805 as Toll-free
           numbers. -->
      <tollFree>
        <possibleLengths national=""9""/>
        <exampleNumber>800012345</exampleNumber>
        <nationalNumberPattern>80[0-5]\d{6}</nationalNumberPattern>
      </tollFree>
      <premiumRate>
        <possibleLengths national=""9""/>
        <exampleNumber>810123456</exampleNumber>
        <nationalNumberPattern>8[129]\d{7}</nationalNumberPattern>
      </premiumRate>
      <voip>
        <possibleLengths national=""9""/>
        <exampleNumber>976012345</exampleNumber>
        <nationalNumberPattern>
          9(?:
            (?:
              39[5-7]|
              76[018]
            )\d|
            475[0-6]
          )\d{4}
        </nationalNumberPattern>
      </voip>
    </territory>"];
  ["

    <!-- Bermuda (BM) -->
    <!-- Calling code and formatting shared with 'US' -->
    <!-- http://www.itu.int/oth/T0202000018/en -->
    <territory id=""BM"" countryCode=""1"" leadingDigits=""441"" internationalPrefix=""011""
               nationalPrefix=""1"" nationalPrefixForParsing=""([2-9]\d{6})$|1""
               nationalPrefixTransformRule=""441$1"" mobileNumberPortableRegion=""true"">
      <generalDesc>
        <nationalNumberPattern>
          (?:
            441|
            [58]\d\d|
            900
          )\d{7}
        </nationalNumberPattern>
      </generalDesc>
      <fixedLine>
        <possibleLengths national=""10"" localOnly=""7""/>
        <exampleNumber>4414123456</exampleNumber>
        <nationalNumberPattern>
          441(?:
            [46]\d\d|
            5(?:
              4\d|
              60|
              89
            )
          )\d{4}
        </nationalNumberPattern>
      </fixedLine>
      <mobile>
        <possibleLengths national=""10"" localOnly=""7""/>
        <exampleNumber>4413701234</exampleNumber>
        <nationalNumberPattern>
          441(?:
            [2378]\d|
            5[0-39]|
            9[02]
          )\d{5}
        </nationalNumberPattern>
      </mobile>
      <tollFree>
        <possibleLengths national=""10""/>
        <exampleNumber>8002123456</exampleNumber>
        <nationalNumberPattern>
          8(?:
            00|
            33|
            44|
            55|
            66|
            77|
            88
          )[2-9]\d{6}
        </nationalNumberPattern>
      </tollFree>
      <premiumRate>
        <possibleLengths national=""10""/>
        <exampleNumber>9002123456</exampleNumber>
        <nationalNumberPattern>900[2-9]\d{6}</nationalNumberPattern>
      </premiumRate>
      <!-- https://www.nationalnanpa.com/number_resource_info/5XX_codes.html -->
      <personalNumber>
        <possibleLengths national=""10""/>
        <exampleNumber>5002345678</exampleNumber>
        <nationalNumberPattern>
          52(?:
";
   "            3(?:
              [2-46-9][02-9]\d|
              5(?:
                [02-46-9]\d|
                5[0-46-9]
              )
            )|
            4(?:
              [2-478][02-9]\d|
              5(?:
                [034]\d|
                2[024-9]|
                5[0-46-9]
              )|
              6(?:
                0[1-9]|
                [2-9]\d
              )|
              9(?:
                [05-9]\d|
                2[0-5]|
                49
              )
            )
          )\d{4}|
          52[34][2-9]1[02-9]\d{4}|
          5(?:
            00|
            2[125-9]|
            3[23]|
            44|
            66|
            77|
            88
          )[2-9]\d{6}
        </nationalNumberPattern>
      </personalNumber>
    </territory>"];
  ["

    <!-- Brunei (BN) -->
    <!-- http://www.itu.int/oth/T020200001F/en -->
    <!-- Format is fr";
   "om http://aiti.gov.bn/contact.html -->
    <territory id=""BN"" countryCode=""673"" internationalPrefix=""00"">
      <availableFormats>
        <numberFormat pattern=""(\d{3})(\d{4})"">
          <leadingDigits>[2-578]</leadingDigits>
          <format>$1 $2</format>
        </numberFormat>
      </availableFormats>
      <generalDesc>
        <nationalNumberPattern>[2-578]\d{6}</nationalNumberPattern>
      </generalDesc>
      <fixedLine>
        <possibleLengths national=""7""/>
        <exampleNumber>2345678</exampleNumber>
        <nationalNumberPattern>
          22[0-7]\d{4}|
          (?:
            2[013-9]|
            [34]\d|
            5[0-25-9]
          )\d{5}
        </nationalNumberPattern>
      </fixedLine>
      <mobile>
        <possibleLengths national=""7""/>
        <exampleNumber>7123456</exampleNumber>
        <nationalNumberPattern>
          (?:
            22[89]|
            [78]\d\d
          )\d{4}
        </nationalNumberPattern>
      </mobile>
      <voip>
        <possibleLengths national=""7""/>
        <exampleNumber>5345678</exampleNumber>
        <nationalNumberPattern>5[34]\d{5}</nationalNumberPattern>
      </voip>
    </territory>"];
  ["

    <!-- Bolivia (BO) -->
    <!-- http://www.itu.int/oth/T020200001A/en -->
    <!-- http://www.bolivia.com/Servicios/Plandenumeracion.pdf -->
    <territory id=""BO"" countryCode=""591"" internationalPrefix=""00(?:1\d)?"" nationalPrefix=""0""
               nationalPrefixForParsing=""0(1\d)?"">
      <availableFormats>
        <numberFormat pattern=""(\d)(\d{7})"" carrierCodeFormattingRule=""$NP$CC $FG"">
          <leadingDigits>
            [23]|
            4[46]|
            50
          </leadingDigits>
          <format>$1 $2</format>
        </numberFormat>
        <numberFormat pattern=""(\d{8})"" carrierCodeFormattingRule=""$NP$CC $FG"">
          <leadingDigits>[5-7]</leadingDigits>
          <format>$1</format>
        </numberFormat>
        <numberFormat pattern=""(\d{3})(\d{2})(\d{4})"" carrierCodeFormattingRule=""$NP$CC $FG"">
          <leadingDigits>8</leadingDigits>
          <format>$1 $2 $3</format>
        </numberFormat>
      </availableFormats>
      <generalDesc>
        <nationalNumberPattern>
          (?:
            [2-7]\d\d|
            8001
          )\d{5}
        </nationalNumberPattern>
      </generalDesc>
      <noInternationalDialling>
        <possibleLengths national=""9""/>
        <nationalNumberPattern>8001[07]\d{4}</nationalNumberPattern>
      </noInternationalDialling>
      <fixedLine>
        <possibleLengths national=""8"" localOnly=""7""/>
        <exampleNumber>22123456</exampleNumber>
        <nationalNumberPattern>
          (?:
            2(?:
              2\d\d|
              5(?:
                11|
                [258]\d|
                9[67]
              )|
              6(?:
                12|
                2\d|
                9[34]
              )|
              8(?:
                2[34]|
                39|
                62
              )
            )|
            3(?:
              3\d\d|
              4(?:
                6\d|
                8[24]
              )|
              8(?:
                25|
                42|
";
   "                5[257]|
                86|
                9[25]
              )|
              9(?:
                [27]\d|
                3[2-4]|
                4[248]|
                5[24]|
                6[2-6]
              )
            )|
            4(?:
              4\d\d|
              6(?:
                11|
                [24689]\d|
                72
              )
            )
          )\d{4}
        </nationalNumberPattern>
      </fixedLine>
      <mobile>
        <possibleLengths national=""8""/>
        <exampleNumber>71234567</exampleNumber>
        <nationalNumberPattern>
          (?:
            57|
            [67]\d
          )\d{6}
        </nationalNumberPattern>
      </mobile>
      <!-- Added prefix 8001[07] based on user report. -->
      <tollFree>
        <possibleLengths national=""9""/>
        <exampleNumber>800171234</exampleNumber>
        <nationalNumberPattern>8001[07]\d{4}</nationalNumberPattern>
      </tollFree>
      <voip>
        <possibleLengths national=""8"" localOnly=""7""/>
        <exampleNumber>50123456</exampleNumber>
        <nationalNumberPattern>50\d{6}</nationalNumberPattern>
      </voip>
    </territory>"];
  ["

    <!-- Caribbean Netherlands (BQ) -->
    <!-- Calling code and formatting shared with 'CW' -->
    <!-- http://www.itu.int/oth/T02020000F8/en -->
    <territory id=""BQ"" countryCode=""599"" leadingDigits=""[347]"" internationalPrefix=""00"">
      <generalDesc>
        <nationalNumberPattern>
          (?:
            [34]1|
            7\d
          )\d{5}
        </nationalNumberPattern>
      </generalDesc>
      <!-- Prefixes 72[05] are mentioned as ""Long distance service"" numbers in ITU. Not supporting
           them for now because we aren't sure what they are used for and no example numbers can
           be found online. -->
      <fixedLine>
        <possibleLengths national=""7""/>
        <exampleNumber>7151234</exampleNumber>
        <nationalNumberPattern>
          (?:
            318[023]|
            41(?:
              6[023]|
              70
            )|
            7(?:
              1[578]|
              2[05]|
              50
            )\d
          )\d{3}
        </nationalNumberPattern>
      </fixedLine>
      <mobile>
        <possibleLengths national=""7""/>
        <exampleNumber>3181234</exampleNumber>
        <nationalNumberPattern>
          (?:
            31(?:
              8[14-8]|
              9[14578]
            )|
            416[14-9]|
            7(?:
              0[01]|
              7[07]|
              8\d|
              9[056]
            )\d
          )\d{3}
        </nationalNumberPattern>
      </mobile>
    </territory>"];
  ["

    <!-- Brazil (BR) -->
    <!-- http://en.wikipedia.org/wiki/%2B55 -->
    <!-- http://www.itu.int/oth/T020200001D/en -->
    <!-- The national prefix for parsing here also contains a capturing group for the main number,
         since the carrier codes here may also be area codes, so we want to ch";
   "eck the length of
         the number after capturing. We also need a nationalTransformRule to repopulate with the
         number without the carrier code. -->
    <!-- 90 is an additional dialling token used in place of national prefix (0), under scheme
         ""Collect Call"" in Brazil. Lo";
   "cal dialling under this prefix is not supported.
         https://www.anatel.gov.br/Portal/verificaDocumentos/documento.asp?numeroPublicacao=346146&pub=original&filtro=1&documentoPath=346146.pdf -->
    <territory id=""BR"" countryCode=""55"" internationalPrefix=""00(?:1[245]|2[1-35]|31|4[13]|[56]5|99)""
               nationalPrefix=""0""
               nationalPrefixForParsing=""
                 (?:
                   0|
                   90
                 )(?:
                   (
                     1[245]|
                     2[1-35]|
                     31|
                     4[13]|
                     [56]5|
                     99
                   )(
                     \d{10,11}
                   )
                 )?""
               nationalPrefixTransformRule=""$2"" mobileNumberPortableRegion=""true"">
      <availableFormats>
        <!-- Format short numbers as a block. -->
        <numberFormat pattern=""(\d{3,6})"">
          <leadingDigits>
            1(?:
              1[25-8]|
              2[357-9]|
              3[02-68]|
              4[12568]|
              5|
              6[0-8]|
              8[015]|
              9[0-47-9]
            )|
            321|
            610
          </leadingDigits>
          <format>$1</format>
          <intlFormat>NA</intlFormat>
        </numberFormat>
        <!-- 8-digit shared cost numbers (mostly national only). -->
        <numberFormat pattern=""(\d{4})(\d{4})"">
";
   "          <leadingDigits>
            300|
            4(?:
              0[02]|
              37|
              86
            )
          </leadingDigits>
          <leadingDigits>
            300|
            4(?:
              0(?:
                0|
                20
              )|
              370|
              864
            )
          </leadingDigits>
          <format>$1-$2</format>
        </numberFormat>
        <numberFormat pattern=""(\d{4})(\d{4})"">
          <leadingDigits>[2-57]</leadingDigits>
          <leadingDigits>
            [2357]|
            4(?:
              [0-24-9]|
              3(?:
                [0-689]|
                7[1-9]
              )
            )
          </leadingDigits>
          <format>$1-$2</format>
          <intlFormat>NA</intlFormat>
        </numberFormat>
        <!-- Va";
   "riable cost numbers (9 - 10 digits). -->
        <numberFormat pattern=""(\d{3})(\d{2,3})(\d{4})"" nationalPrefixFormattingRule=""$NP$FG"">
          <leadingDigits>
            (?:
              [358]|
              90
            )0
          </leadingDigits>
          <format>$1 $2 $3</format>
        </numberFormat>
        <numberFormat pattern=""(\d{5})(\d{4})"">
          <leadingDigits>9</leadingDigits>
          <format>$1-$2</format>
          <intlFormat>NA</intlFormat>
        </numberFormat>
        <!-- Fixed-line and pre-transition mobile numbers and mobile radio services dialled with an
             area code. -->
        <numberFormat pattern=""(\d{2})(\d{4})(\d{4})"" nationalPrefixFormattingRule=""($FG)""
                      carrierCodeFormattingRule=""$NP $CC ($FG)"">
          <leadingDigits>
            (?:
              [14689][1-9]|
              2[12478]|
              3[1-578]|
              5[13-5]|
              7[13-579]
            )[2-57]
          </leadingDigits>
          <format>$1 $2-$3</format>
        </numberFormat>
        <!-- Mobile numbers (post transition, 11 digits). -->
        <numberFormat pattern=""(\d{2})(\d{5})(\d{4})"" nationalPrefixFormattingRule=""($FG)""
";
   "                      carrierCodeFormattingRule=""$NP $CC ($FG)"">
          <leadingDigits>
            [16][1-9]|
            [2-57-9]
          </leadingDigits>
          <format>$1 $2-$3</format>
        </numberFormat>
      </availableFormats>
      <generalDesc>
        <nationalNumberPattern>
          [1-467]\d{9,10}|
          55[0-46-9]\d{8}|
          [34]\d{7}|
          55\d{7,8}|
          (?:
            5[0-46-9]|
            [89]\d
          )\d{7,9}
        </nationalNumberPattern>
      </generalDesc>
      <noInternationalDialling>
        <possibleLengths national=""[8-10]""/>
        <nationalNumberPattern>
          (?:
            30[03]\d{3}|
            4(?:
              0(?:
                0\d|
                20
              )|
              864
            )
          )\d{4}|
          800\d{6,7}|
          300\d{5}
        </nationalNumberPattern>
      </noInternationalDialling>
      <!-- 52 is not added as an area code even though ITU mentions it, since it is not yet
           assigned as per ANATEL and Wikipedia. -->
      <fixedLine>
        <possibleLengths national=""10"" localOnly=""8""/>
        <exampleNumber>1123456789</exampleNumber>
        <nationalNumberPattern>
          (?:
            [14689][1-9]|
            2[12478]|
            3[1-578]|
            5[13-5]|
            7[13-579]
          )[2-5]\d{7}
        </nationalNumberPattern>
      </fixedLine>
      <!-- Mobile radio services were not migrated and remain 10 digits long, where the 3rd digit is
           7.  -->
      <!-- 52 is not included as a valid area code even though ITU mentions it, since it is not
           assigned as per ANATEL and Wikipedia. -->
      <mobile>
        <possibleLengths national=""10,11"" localOnly=""8,9""/>
        <exampleNumber>11961234567</exampleNumber>
        <nationalNumberPattern>
          (?:
            [14689][1-9]|
            2[12478]|
            3[1-578]|
            5[13-5]|
            7[13-579]
          )(?:
            7|
";
   "            9\d
          )\d{7}
        </nationalNumberPattern>
      </mobile>
      <tollFree>
        <possibleLengths national=""9,10""/>
        <exampleNumber>800123456</exampleNumber>
        <nationalNumberPattern>800\d{6,7}</nationalNumberPattern>
      </tollFree>
      <premiumRate>
        <possibleLengths national=""9,10""/>
        <exampleNumber>500123456</exampleNumber>
        <nationalNumberPattern>[59]00\d{6,7}</nationalNumberPattern>
      </premiumRate>
      <!-- Supported 4370 & 4864 as shared cost based on user report. -->
      <sharedCost>
        <possibleLengths national=""8,10""/>
        <exampleNumber>40041234</exampleNumber>
        <nationalNumberPattern>
          (?:
            30[03]\d{3}|
            4(?:
              0(?:
                0\d|
                20
              )|
              370|
              864
            )
          )\d{4}|
          300\d{5}
        </nationalNumberPattern>
      </sharedCost>
    </territory>"];
  ["

    <!-- Bahamas (BS) -->
    <!-- Calling code and formatting shared with 'US' -->
    <!-- http://www.itu.int/oth/T0202000010/en -->
    <territory id=""BS"" countryCode=""1"" leadingDigits=""242"" internationalPrefix=""011""
               nationalPrefix=""1"" nationalPrefixForParsing=""([3-8]\d{6})$|1""
               nationalPrefixTransformRule=""242$1"" mobileNumberPortableRegion=""true"">
      <generalDesc>
        <nationalNumberPattern>
          (?:
            242|
            [58]\d\d|
            900
          )\d{7}
        </nationalNumberPattern>
      </generalDesc>
      <fixedLine>
        <possibleLengths national=""10"" localOnly=""7""/>
        <exampleNumber>2423456789</exampleNumber>
        <nationalNumberPattern>
          242(?:
            3(?:
              02|
              [236][1-9]|
              4[0-24-9]|
              5[0-68]|
              7[347]|
              8[0-4]|
              9[2-467]
            )|
            461|
            502|
            6(?:
              0[1-5]|
              12|
              2[013]|
              [45]0|
              7[67]|
              8[78]|
              9[89]
            )|
            7(?:
              02|
              88
            )
          )\d{4}
        </nationalNumberPattern>
      </fixedLine>
      <mobile>
        <possibleLengths national=""10"" localOnly=""7""/>
        <exampleNumber>2423591234</exampleNumber>
        <nationalNumberPattern>
          242(?:
            3(?:
              5[79]|
              7[56]|
              95
            )|
            4(?:
              [23][1-9]|
              4[1-35-9]|
              5[1-8]|
              6[2-8]|
              7\d|
              81
            )|
            5(?:
              2[45]|
              3[35]|
              44|
              5[1-46-9]|
              65|
              77
            )|
            6[34]6|
            7(?:
              27|
              38
            )|
            8(?:
              0[1-9]|
              1[02-9]|
";
   "              2\d|
              3[0-4]|
              [89]9
            )
          )\d{4}
        </nationalNumberPattern>
      </mobile>
      <!-- 242 300 is a Domestic Toll Free service. -->
      <tollFree>
        <possibleLengths national=""10"" localOnly=""7""/>
        <exampleNumber>8002123456</exampleNumber>
        <nationalNumberPattern>
          242300\d{4}|
          8(?:
            00|
            33|
            44|
            55|
            66|
            77|
            88
          )[2-9]\d{6}
        </nationalNumberPattern>
      </tollFree>
      <premiumRate>
        <possibleLengths national=""10""/>
        <exampleNumber>9002123456</exampleNumber>
        <nationalNumberPattern>900[2-9]\d{6}</nationalNumberPattern>
      </premiumRate>
      <!-- https://www.nationalnanpa.com/number_resource_info/5XX_codes.html -->
      <personalNumber>
        <possibleLengths national=""10""/>
        <exampleNumber>5002345678</exampleNumber>
        <nationalNumberPattern>
          52(?:
            3(?:
              [2-46-9][02-9]\d|
              5(?:
                [02-46-9]\d|
                5[0-46-9]
              )
            )|
            4(?:
              [2-478][02-9]\d|
              5(?:
                [034]\d|
                2[024-9]|
                5[0-46-9]
              )|
              6(?:
                0[1-9]|
                [2-9]\d
              )|
              9(?:
                [05-9]\d|
                2[0-5]|
                49
              )
            )
          )\d{4}|
          52[34][2-9]1[02-9]\d{4}|
          5(?:
            00|
            2[125-9]|
            3[23]|
            44|
            66|
            77|
            88
          )[2-9]\d{6}
        </nationalNumberPattern>
      </personalNumber>
      <!-- 225[0-46-9] ranges are mentioned as DID (Direct Inward Dialing) numbers in ITU doc.
           http://whatis.techtarget.com/definition/Direct-Inward-Dialing-DID. Found valid numbers
           online. -->
";
   "      <uan>
        <possibleLengths national=""10""/>
        <exampleNumber>2422250123</exampleNumber>
        <nationalNumberPattern>242225\d{4}</nationalNumberPattern>
      </uan>
    </territory>"];
  ["

    <!-- Bhutan (BT) -->
    <!-- Universal personal telecommunication prefixes 700 and 878 are not
         added as there is no information on length of numbers. -->
    <!-- Pager service prefix 91 is not added as there is no information on
         length of numbers. -->
    <!-- http://www.itu.int/oth/T0202000019/en -->
    <territory id=""BT"" countryCode=""975"" internationalPrefix=""00"">
      <availableFormats>
        <numberFormat pattern=""(\d{3})(\d{3})"">
          <leadingDigits>[2-7]</leadingDigits>
          <format>$1 $2</format>
          <intlFormat>NA</intlFormat>
        </numberFormat>
        <numberFormat pattern=""(\d)(\d{3})(\d{3})"">
          <leadingDigits>
            [2-6]|
            7[246]|
            8[2-4]
          </leadingDigits>
          <format>$1 $2 $3</format>
        </numberFormat>
        <!-- Format is fr";
   "om
             http://www.tourism.gov.bt/tour-operators/bhutan-abbot-tours-and-travels.html -->
        <numberFormat pattern=""(\d{2})(\d{2})(\d{2})(\d{2})"">
          <leadingDigits>
            1[67]|
            [78]
          </leadingDigits>
          <format>$1 $2 $3 $4</format>
        </numberFormat>
      </availableFormats>
      <generalDesc>
        <nationalNumberPattern>
          [178]\d{7}|
          [2-8]\d{6}
        </nationalNumberPattern>
      </generalDesc>
      <fixedLine>
        <possibleLengths national=""7"" localOnly=""6""/>
        <exampleNumber>2345678</exampleNumber>
        <nationalNumberPattern>
          (?:
            2[3-6]|
            [34][5-7]|
            5[236]|
            6[2-46]|
            7[246]|
            8[2-4]
          )\d{5}
        </nationalNumberPattern>
      </fixedLine>
      <mobile>
        <possibleLengths national=""8""/>
        <exampleNumber>17123456</exampleNumber>
        <nationalNumberPattern>
          (?:
            1[67]|
            [78]7
          )\d{6}
        </nationalNumberPattern>
      </mobile>
    </territory>"];
  ["

    <!-- Botswana (BW) -->
    <!-- http://www.itu.int/oth/T020200001C/en -->
    <territory id=""BW"" countryCode=""267"" internationalPrefix=""00"">
      <availableFormats>
        <numberFormat pattern=""(\d{2})(\d{5})"">
          <leadingDigits>90</leadingDigits>
          <format>$1 $2</format>
        </numberFormat>
        <numberFormat pattern=""(\d{3})(\d{4})"">
          <leadingDigits>
            [24-6]|
            3[15-9]
          </leadingDigits>
          <format>$1 $2</format>
        </numberFormat>
        <numberFormat pattern=""(\d{2})(\d{3})(\d{3})"">
          <leadingDigits>[37]</leadingDigits>
          <format>$1 $2 $3</format>
        </numberFormat>
        <numberFormat pattern=""(\d{4})(\d{3})(\d{3})"">
          <leadingDigits>0</leadingDigits>
          <format>$1 $2 $3</format>
        </numberFormat>
        <numberFormat pattern=""(\d{3})(\d{4})(\d{3})"">
          <leadingDigits>8</leadingDigits>
          <format>$1 $2 $3</format>
        </numberFormat>
      </availableFormats>
      <generalDesc>
        <nationalNumberPattern>
          (?:
            0800|
            (?:
              [37]|
              800
            )\d
          )\d{6}|
          (?:
            [2-6]\d|
            90
          )\d{5}
        </nationalNumberPattern>
      </generalDesc>
      <!-- Number range 373 is been supported based on user report and online evidence. -->
      <fixedLine>
        <possibleLengths national=""7""/>
        <exampleNumber>2401234</exampleNumber>
        <nationalNumberPattern>
          (?:
            2(?:
              4[0-48]|
              6[0-24]|
              9[0578]
            )|
            3(?:
              1[0-35-9]|
              55|
              [69]\d|
              7[013]|
              81
            )|
            4(?:
              6[03]|
              7[1267]|
              9[0-5]
            )|
            5(?:
              3[03489]|
              4[0489]|
              7[1-47]|
              88|
              9[0-49]
";
   "            )|
            6(?:
              2[1-35]|
              5[149]|
              8[013467]
            )
          )\d{4}
        </nationalNumberPattern>
      </fixedLine>
      <!-- Added prefixes 748, 749, 778 after getting confirmation fr";
   "om the carriers who
           own them. -->
      <mobile>
        <possibleLengths national=""8""/>
        <exampleNumber>71123456</exampleNumber>
        <nationalNumberPattern>
          (?:
            321|
            7(?:
              [1-8]\d|
              9[03]
            )
          )\d{5}
        </nationalNumberPattern>
      </mobile>
      <!-- BOCRA (official authority) and many Government websites mention 0800 XXX XXX range. -->
      <tollFree>
        <possibleLengths national=""10""/>
        <exampleNumber>0800012345</exampleNumber>
        <nationalNumberPattern>
          (?:
            0800|
            800\d
          )\d{6}
        </nationalNumberPattern>
      </tollFree>
      <premiumRate>
        <possibleLengths national=""7""/>
        <exampleNumber>9012345</exampleNumber>
        <nationalNumberPattern>90\d{5}</nationalNumberPattern>
      </premiumRate>
      <voip>
        <possibleLengths national=""8""/>
        <exampleNumber>79101234</exampleNumber>
        <nationalNumberPattern>
          79(?:
            1(?:
              [0-2]\d|
              3[0-8]
            )|
            2[0-7]\d
          )\d{3}
        </nationalNumberPattern>
      </voip>
    </territory>"];
  ["

    <!-- Belarus (BY) -->
    <!-- Information on national prefix provided by a Belarussian person. -->
    <!-- http://www.eng.beltelecom.by/en/subscribers/phone-codes -->
    <territory id=""BY"" countryCode=""375"" preferredInternationalPrefix=""8~10""
               internationalPrefix=""810"" nationalPrefix=""8"" nationalPrefixForParsing=""0|80?""
               mobileNumberPortableRegion=""true"">
      <availableFormats>
        <!-- 6 digit toll-free numbers. -->
        <numberFormat pattern=""(\d{3})(\d{3})"" nationalPrefixFormattingRule=""$NP $FG"">
          <leadingDigits>800</leadingDigits>
          <format>$1 $2</format>
        </numberFormat>
        <!-- 7-9 digit toll-free numbers. -->
        <numberFormat pattern=""(\d{3})(\d{2})(\d{2,4})"" nationalPrefixFormattingRule=""$NP $FG"">
          <leadingDigits>800</leadingDigits>
          <format>$1 $2 $3</format>
        </numberFormat>
        <!-- 4 digit area codes (fixed line only). -->
        <numberFormat pattern=""(\d{4})(\d{2})(\d{3})"" nationalPrefixFormattingRule=""$NP 0$FG"">
          <leadingDigits>
            1(?:
              5[169]|
              6[3-5]|
              7[179]
            )|
            2(?:
              1[35]|
              2[34]|
              3[3-5]
            )
          </leadingDigits>
          <leadingDigits>
            1(?:
              5[169]|
              6(?:
                3[1-3]|
                4|
                5[125]
              )|
              7(?:
                1[3-9]|
                7[0-24-6]|
                9[2-7]
              )
            )|
            2(?:
              1[35]|
              2[34]|
              3[3-5]
            )
          </leadingDigits>
          <format>$1 $2-$3</format>
        </numberFormat>
        <!-- 3 digit area codes (fixed line only). -->
        <numberFormat pattern=""(\d{3})(\d{2})(\d{2})(\d{2})"" nationalPrefixFormattingRule=""$NP 0$FG"">
          <leadingDigits>
            1(?:
              [56]|
              7[467]
";
   "            )|
            2[1-3]
          </leadingDigits>
          <format>$1 $2-$3-$4</format>
        </numberFormat>
        <!-- 2 digit ""area codes"" (mostly mobile, but some fixed line ranges). -->
        <numberFormat pattern=""(\d{2})(\d{3})(\d{2})(\d{2})"" nationalPrefixFormattingRule=""$NP 0$FG"">
          <leadingDigits>[1-4]</leadingDigits>
          <format>$1 $2-$3-$4</format>
        </numberFormat>
        <!-- 10-11 digit toll-free / premium rate numbers. -->
        <numberFormat pattern=""(\d{3})(\d{3,4})(\d{4})"" nationalPrefixFormattingRule=""$NP $FG"">
          <leadingDigits>[89]</leadingDigits>
          <format>$1 $2 $3</format>
        </numberFormat>
      </availableFormats>
      <generalDesc>
        <nationalNumberPattern>
          (?:
            [12]\d|
            33|
            44|
            902
          )\d{7}|
          8(?:
            0[0-79]\d{5,7}|
            [1-7]\d{9}
          )|
          8(?:
            1[0-489]|
            [5-79]\d
          )\d{7}|
          8[1-79]\d{6,7}|
          8[0-79]\d{5}|
          8\d{5}
        </nationalNumberPattern>
      </generalDesc>
      <!-- Toll-free and premium rate numbers are not available fr";
   "om abroad. -->
      <noInternationalDialling>
        <possibleLengths national=""[6-11]""/>
        <nationalNumberPattern>
          800\d{3,7}|
          (?:
            8(?:
              0[13]|
              10|
              20\d
            )|
            902
          )\d{7}
        </nationalNumberPattern>
      </noInternationalDialling>
      <!-- Using test number for Grodno fr";
   "om the plan. -->
      <fixedLine>
        <possibleLengths national=""9"" localOnly=""[5-7]""/>
        <exampleNumber>152450911</exampleNumber>
        <nationalNumberPattern>
          (?:
            1(?:
              5(?:
                1[1-5]|
                [24]\d|
                6[2-4]|
                9[1-7]
              )|
              6(?:
                [235]\d|
                4[1-7]
              )|
";
   "              7\d\d
            )|
            2(?:
              1(?:
                [246]\d|
                3[0-35-9]|
                5[1-9]
              )|
              2(?:
                [235]\d|
                4[0-8]
              )|
              3(?:
                [26]\d|
                3[02-79]|
                4[024-7]|
                5[03-7]
              )
            )
          )\d{5}
        </nationalNumberPattern>
      </fixedLine>
      <!-- Using test number for BelCel fr";
   "om the plan. -->
      <mobile>
        <possibleLengths national=""9""/>
        <exampleNumber>294911911</exampleNumber>
        <nationalNumberPattern>
          (?:
            2(?:
              5[5-79]|
              9[1-9]
            )|
            (?:
              33|
              44
            )\d
          )\d{6}
        </nationalNumberPattern>
      </mobile>
      <!-- Putting Interactive Polling Service (free) here too. -->
      <tollFree>
        <possibleLengths national=""[6-11]""/>
        <exampleNumber>8011234567</exampleNumber>
        <nationalNumberPattern>
          800\d{3,7}|
          8(?:
            0[13]|
            20\d
          )\d{7}
        </nationalNumberPattern>
      </tollFree>
      <!-- Putting Interactive Polling Service (paid) here too. -->
      <premiumRate>
        <possibleLengths national=""10""/>
        <exampleNumber>9021234567</exampleNumber>
        <nationalNumberPattern>
          (?:
            810|
            902
          )\d{7}
        </nationalNumberPattern>
      </premiumRate>
      <!-- 249 prefix for Beltelcom's Maxiphone added based on online info. -->
      <voip>
        <possibleLengths national=""9""/>
        <exampleNumber>249123456</exampleNumber>
        <nationalNumberPattern>249\d{6}</nationalNumberPattern>
      </voip>
    </territory>"];
  ["

    <!-- Belize (BZ) -->
    <!-- The trunk prefix, formally 0, was dropped in the last reorganisation of the numbering plan. -->
    <!-- http://www.itu.int/oth/T0202000016/en -->
    <territory id=""BZ"" countryCode=""501"" internationalPrefix=""00"">
      <availableFormats>
        <!-- Adding hyphen following the Belize Telemedia formatting rules. -->
        <numberFormat pattern=""(\d{3})(\d{4})"">
          <leadingDigits>[2-8]</leadingDigits>
          <format>$1-$2</format>
        </numberFormat>
        <numberFormat pattern=""(\d)(\d{3})(\d{4})(\d{3})"">
          <leadingDigits>0</leadingDigits>
          <format>$1-$2-$3-$4</format>
        </numberFormat>
      </availableFormats>
      <generalDesc>
        <nationalNumberPattern>
          (?:
            0800\d|
            [2-8]
          )\d{6}
        </nationalNumberPattern>
      </generalDesc>
      <!-- Wikipedia and ITU seem out of date, but say that for a number in the format ZNY-XXXX
           Z represents the district code (or 6 for mobile), N the type of number and Y the first
           digit of the customer's number. Only N = 0 and 2 are supposedly in use, but we have
           found some numbers with N = 3 online (prefixes 732 and 236). When emailed,
           Belize Telemedia Ltd confirmed numbers with prefix 732 belong to the Landline Postpaid
           PSTN category. -->
      <fixedLine>
        <possibleLengths national=""7""/>
        <exampleNumber>2221234</exampleNumber>
        <nationalNumberPattern>
          (?:
            2(?:
              [02]\d|
              36|
              [68]0
            )|
            [3-58](?:
              [02]\d|
              [68]0
            )|
            7(?:
              [02]\d|
              32|
              [68]0
            )
          )\d{4}
        </nationalNumberPattern>
      </fixedLine>
      <!-- 62[6-9], 63X, 65X and 6[67][2-9] were added as we have been able to successfully
           send SMSs to these numbers or many numbers have been found online. -->
";
   "      <mobile>
        <possibleLengths national=""7""/>
        <exampleNumber>6221234</exampleNumber>
        <nationalNumberPattern>6[0-35-7]\d{5}</nationalNumberPattern>
      </mobile>
      <!-- We don't know how these would be dialled internationally - it is possible that they can't
           be dialled internationally at all - so we represent the leading 0 as part of the number.
           Information fr";
   "om http://www.belizetelemedia.net. -->
      <tollFree>
        <possibleLengths national=""11""/>
        <exampleNumber>08001234123</exampleNumber>
        <nationalNumberPattern>0800\d{7}</nationalNumberPattern>
      </tollFree>
    </territory>"];
  ["

    <!-- Canada (CA) -->
    <!-- Calling code and formatting shared with 'US' -->
    <!-- http://www.cnac.ca/canadian_dial_plan/canadian_dial_plan.htm -->
    <territory id=""CA"" countryCode=""1"" internationalPrefix=""011"" nationalPrefix=""1""
               mobileNumberPortableRegion=""true"">
      <generalDesc>
        <nationalNumberPattern>
          [2-9]\d{9}|
          3\d{6}
        </nationalNumberPattern>
      </generalDesc>
      <fixedLine>
        <possibleLengths national=""10"" localOnly=""7""/>
        <exampleNumber>5062345678</exampleNumber>
        <nationalNumberPattern>
          (?:
            2(?:
              04|
              [23]6|
              [48]9|
              5[07]|
              63
            )|
            3(?:
              06|
              43|
              54|
              6[578]|
              82
            )|
            4(?:
              03|
              1[68]|
              [26]8|
              3[178]|
              50|
              74
            )|
            5(?:
              06|
              1[49]|
              48|
              79|
              8[147]
            )|
            6(?:
              04|
              [18]3|
              39|
              47|
              72
            )|
            7(?:
              0[59]|
              42|
              53|
              78|
              8[02]
            )|
            8(?:
              [06]7|
              19|
              25|
              7[39]
            )|
            9(?:
              0[25]|
              42
            )
          )[2-9]\d{6}
        </nationalNumberPattern>
      </fixedLine>
      <mobile>
        <possibleLengths national=""10"" localOnly=""7""/>
        <exampleNumber>5062345678</exampleNumber>
        <nationalNumberPattern>
          (?:
            2(?:
              04|
              [23]6|
              [48]9|
              5[07]|
              63
            )|
            3(?:
              06|
              43|
              54|
";
   "              6[578]|
              82
            )|
            4(?:
              03|
              1[68]|
              [26]8|
              3[178]|
              50|
              74
            )|
            5(?:
              06|
              1[49]|
              48|
              79|
              8[147]
            )|
            6(?:
              04|
              [18]3|
              39|
              47|
              72
            )|
            7(?:
              0[59]|
              42|
              53|
              78|
              8[02]
            )|
            8(?:
              [06]7|
              19|
              25|
              7[39]
            )|
            9(?:
              0[25]|
              42
            )
          )[2-9]\d{6}
        </nationalNumberPattern>
      </mobile>
      <tollFree>
        <possibleLengths national=""10""/>
        <exampleNumber>8002123456</exampleNumber>
        <nationalNumberPattern>
          8(?:
            00|
            33|
            44|
            55|
            66|
            77|
            88
          )[2-9]\d{6}
        </nationalNumberPattern>
      </tollFree>
      <premiumRate>
        <possibleLengths national=""10""/>
        <exampleNumber>9002123456</exampleNumber>
        <nationalNumberPattern>900[2-9]\d{6}</nationalNumberPattern>
      </premiumRate>
      <!-- https://www.nationalnanpa.com/number_resource_info/5XX_codes.html -->
      <personalNumber>
        <possibleLengths national=""10""/>
        <exampleNumber>5219023456</exampleNumber>
        <nationalNumberPattern>
          52(?:
            3(?:
              [2-46-9][02-9]\d|
              5(?:
                [02-46-9]\d|
                5[0-46-9]
              )
            )|
            4(?:
              [2-478][02-9]\d|
              5(?:
                [034]\d|
                2[024-9]|
                5[0-46-9]
              )|
              6(?:
                0[1-9]|
                [2-9]\d
              )|
";
   "              9(?:
                [05-9]\d|
                2[0-5]|
                49
              )
            )
          )\d{4}|
          52[34][2-9]1[02-9]\d{4}|
          (?:
            5(?:
              2[125-9]|
              3[23]|
              44|
              66|
              77|
              88
            )|
            6(?:
              22|
              33
            )
          )[2-9]\d{6}
        </nationalNumberPattern>
      </personalNumber>
      <!-- 600 (Canadian Non-Geographic Tariffed Services) are satellite numbers as per Wikipedia:
           https://en.wikipedia.org/wiki/Area_code_600 -->
      <voip>
        <possibleLengths national=""10""/>
        <exampleNumber>6002012345</exampleNumber>
        <nationalNumberPattern>600[2-9]\d{6}</nationalNumberPattern>
      </voip>
      <!-- Prefix 310 (7 digit) is added based on user report and online documents. -->
      <uan>
        <possibleLengths national=""7""/>
        <exampleNumber>3101234</exampleNumber>
        <nationalNumberPattern>310\d{4}</nationalNumberPattern>
      </uan>
    </territory>"]].
