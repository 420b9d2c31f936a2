(** Generated by tools/gen_text.py: the text of /repo/assets/PhoneNumberMetadata.xml,
    part E of F, cut after every territory. *)
From Verif Require Import Base.
Local Open Scope bstr_scope.

Definition text_e : list (list bstr) :=
 [["

    <!-- Malaysia (MY) -->
    <!-- http://en.wikipedia.org/wiki/%2B60 -->
    <!-- https://www.mcmc.gov.my/sectors/celco/numbering-management/numbering-management/numbers-assignment -->
    <territory id=""MY"" countryCode=""60"" internationalPrefix=""00"" nationalPrefix=""0""
               mobileNumberPortableRegion=""true"">
      <availableFormats>
        <!-- 8-digit fixed line ranges -->
        <numberFormat pattern=""(\d)(\d{3})(\d{4})"" nationalPrefixFormattingRule=""$NP$FG"">
          <leadingDigits>[4-79]</leadingDigits>
          <format>$1-$2 $3</format>
        </numberFormat>
        <!-- 8/9-digit fixed line or mobile ranges -->
        <numberFormat pattern=""(\d{2})(\d{3})(\d{3,4})"" nationalPrefixFormattingRule=""$NP$FG"">
          <leadingDigits>
            1(?:
              [02469]|
              [378][1-9]|
              53
            )|
            8
          </leadingDigits>
          <leadingDigits>
            1(?:
              [02469]|
              [37][1-9]|
              53|
              8(?:
                [1-46-9]|
                5[7-9]
              )
            )|
            8
          </leadingDigits>
          <format>$1-$2 $3</format>
        </numberFormat>
        <!-- 9-digit fixed line ranges -->
        <numberFormat pattern=""(\d)(\d{4})(\d{4})"" nationalPrefixFormattingRule=""$NP$FG"">
          <leadingDigits>3</leadingDigits>
          <format>$1-$2 $3</format>
        </numberFormat>
        <!-- Va";
   "riable cost (premium rate, toll free etc.) -->
        <numberFormat pattern=""(\d)(\d{3})(\d{2})(\d{4})"">
          <leadingDigits>
            1(?:
              [367]|
              80
            )
          </leadingDigits>
          <format>$1-$2-$3-$4</format>
        </numberFormat>
        <!-- 10 digit mobile or voip ranges -->
        <numberFormat pattern=""(\d{3})(\d{3})(\d{4})"" nationalPrefixFormattingRule=""$NP$FG"">
          <leadingDigits>15</leadingDigits>
          <format>$1-$2 $3</format>
        </numberFormat>
        <!-- 10 digit mobile ranges -->
";
   "        <numberFormat pattern=""(\d{2})(\d{4})(\d{4})"" nationalPrefixFormattingRule=""$NP$FG"">
          <leadingDigits>1</leadingDigits>
          <format>$1-$2 $3</format>
        </numberFormat>
      </availableFormats>
      <generalDesc>
        <nationalNumberPattern>
          1\d{8,9}|
          (?:
            3\d|
            [4-9]
          )\d{7}
        </nationalNumberPattern>
      </generalDesc>
      <!-- Prefixes 32778, 39108, 6795, 82266, 905[79], 9075, 9132 and 9206 are added based on user
           reports. Maintaining prefix data at 3 digit granularity as the new fixed-line ranges are
           being added frequently in mcmc.gov.my docs. This avoids false negatives and eases up the
           maintenance. -->
      <fixedLine>
        <possibleLengths national=""8,9"" localOnly=""6,7""/>
        <exampleNumber>323856789</exampleNumber>
        <nationalNumberPattern>
          427[01]\d{4}|
          (?:
            3(?:
              2[0-36-9]|
              3[0-368]|
              4[0-278]|
              5[0-24-8]|
              6[0-467]|
              7[1246-9]|
              8\d|
              9[0-57]
            )\d|
            4(?:
              2[0-689]|
              [3-79]\d|
              8[1-35689]
            )|
            5(?:
              2[0-589]|
              [3468]\d|
              5[0-489]|
              7[1-9]|
              9[23]
            )|
            6(?:
              2[2-9]|
              3[1357-9]|
              [46]\d|
              5[0-6]|
              7[0-35-9]|
              85|
              9[015-8]
            )|
            7(?:
              [2579]\d|
              3[03-68]|
              4[0-8]|
              6[5-9]|
              8[0-35-9]
            )|
            8(?:
              [24][2-8]|
              3[2-5]|
              5[2-7]|
              6[2-589]|
              7[2-578]|
              [89][2-9]
            )|
            9(?:
              0[57]|
              13|
              [25-7]\d|
              [3489][0-8]
";
   "            )
          )\d{5}
        </nationalNumberPattern>
      </fixedLine>
      <!-- Although the plan lists the prefix 159 as broadband services (data only), apparently it
           is possible to send SMSs (and receive them) fr";
   "om numbers in this block, so we are
           listing them as mobile. 11[4-6] was added based on numbers found online. -->
      <mobile>
        <possibleLengths national=""9,10""/>
        <exampleNumber>123456789</exampleNumber>
        <nationalNumberPattern>
          1(?:
            (?:
              1888[689]|
              4400|
              8(?:
                47|
                8[27]
              )[0-4]
            )\d{4}|
            9\d{7,8}
          )|
          1(?:
            0(?:
              [23568]\d|
              4[0-6]|
              7[016-9]|
              9[0-8]
            )|
            1(?:
              [1-5]\d\d|
              6(?:
                0[5-9]|
                [1-9]\d
              )|
              7(?:
                [0-4]\d|
                5[0-79]|
                6[02-4]|
                8[02-5]
              )
            )|
            (?:
              [26]\d|
              [37][1-9]|
              4[235-9]
            )\d|
            5(?:
              31|
              9\d\d
            )|
            8(?:
              1[23]|
              [236]\d|
              4[06]|
              5(?:
                46|
                [7-9]
              )|
              7[016-9]|
              8[01]|
              9[0-8]
            )
          )\d{5}
        </nationalNumberPattern>
      </mobile>
      <!-- http://www.skmm.gov.my/skmmgovmy/media/General/pdf/Special_Service_Number.pdf -->
      <tollFree>
        <possibleLengths national=""10""/>
        <exampleNumber>1300123456</exampleNumber>
        <nationalNumberPattern>1[378]00\d{6}</nationalNumberPattern>
      </tollFree>
      <premiumRate>
        <possibleLengths national=""10""/>
        <exampleNumber>1600123456</exampleNumber>
";
   "        <nationalNumberPattern>1600\d{6}</nationalNumberPattern>
      </premiumRate>
      <voip>
        <possibleLengths national=""10""/>
        <exampleNumber>1546012345</exampleNumber>
        <nationalNumberPattern>
          15(?:
            4(?:
              6[0-4]\d|
              8(?:
                0[125]|
                [17]\d|
                21|
                3[01]|
                4[01589]|
                5[014]|
                6[02]
              )
            )|
            6(?:
              32[0-6]|
              78\d
            )
          )\d{4}
        </nationalNumberPattern>
      </voip>
    </territory>"];
  ["

    <!-- Mozambique (MZ) -->
    <!-- The plan suggests 801 and 802 numbers are shared-cost numbers, and numbers beginning with
         a 9 are premium rate, but no online examples can be found of any of these so they are
         omitted for the ti";
   "me-being. -->
    <!-- http://www.itu.int/oth/T0202000091/en -->
    <territory id=""MZ"" countryCode=""258"" internationalPrefix=""00"">
      <availableFormats>
        <numberFormat pattern=""(\d{2})(\d{3})(\d{3,4})"">
          <leadingDigits>
            2|
            8[2-79]
          </leadingDigits>
          <format>$1 $2 $3</format>
        </numberFormat>
        <numberFormat pattern=""(\d{3})(\d{3})(\d{3})"">
          <leadingDigits>8</leadingDigits>
          <format>$1 $2 $3</format>
        </numberFormat>
      </availableFormats>
      <generalDesc>
        <nationalNumberPattern>
          (?:
            2|
            8\d
          )\d{7}
        </nationalNumberPattern>
      </generalDesc>
      <fixedLine>
        <possibleLengths national=""8""/>
        <exampleNumber>21123456</exampleNumber>
        <nationalNumberPattern>
          2(?:
            [1346]\d|
            5[0-2]|
            [78][12]|
            93
          )\d{5}
        </nationalNumberPattern>
      </fixedLine>
      <mobile>
        <possibleLengths national=""9""/>
        <exampleNumber>821234567</exampleNumber>
        <nationalNumberPattern>8[2-79]\d{7}</nationalNumberPattern>
      </mobile>
      <!-- Unsure of the length requirement on toll-free numbers, so using 9 based on online
           examples. -->
      <tollFree>
        <possibleLengths national=""9""/>
        <exampleNumber>800123456</exampleNumber>
        <nationalNumberPattern>800\d{6}</nationalNumberPattern>
      </tollFree>
    </territory>"];
  ["

    <!-- Namibia (NA) -->
    <!-- http://www.itu.int/oth/T0202000093/en -->
    <territory id=""NA"" countryCode=""264"" internationalPrefix=""00"" nationalPrefix=""0"">
      <availableFormats>
        <numberFormat pattern=""(\d{2})(\d{3})(\d{3})"" nationalPrefixFormattingRule=""$NP$FG"">
          <leadingDigits>88</leadingDigits>
          <format>$1 $2 $3</format>
        </numberFormat>
        <numberFormat pattern=""(\d{2})(\d{3})(\d{3,4})"" nationalPrefixFormattingRule=""$NP$FG"">
          <leadingDigits>6</leadingDigits>
          <format>$1 $2 $3</format>
        </numberFormat>
        <numberFormat pattern=""(\d{3})(\d{3})(\d{3})"" nationalPrefixFormattingRule=""$NP$FG"">
          <leadingDigits>87</leadingDigits>
          <format>$1 $2 $3</format>
        </numberFormat>
        <numberFormat pattern=""(\d{2})(\d{3})(\d{4})"" nationalPrefixFormattingRule=""$NP$FG"">
          <leadingDigits>8</leadingDigits>
          <format>$1 $2 $3</format>
        </numberFormat>
      </availableFormats>
      <generalDesc>
        <nationalNumberPattern>[68]\d{7,8}</nationalNumberPattern>
      </generalDesc>
      <!-- Includes VSAT service. Added 6768 and 64426 prefix based on user
           report. -->
      <fixedLine>
        <possibleLengths national=""8,9""/>
        <exampleNumber>61221234</exampleNumber>
        <nationalNumberPattern>
          64426\d{3}|
          6(?:
            1(?:
              2[2-7]|
              3[01378]|
              4[0-4]
            )|
            254|
            32[0237]|
            4(?:
              27|
              41|
              5[25]
            )|
            52[236-8]|
            626|
            7(?:
              2[2-4]|
              30
            )
          )\d{4,5}|
          6(?:
            1(?:
              (?:
                0\d|
                2[0189]|
                3[24-69]|
                4[5-9]
              )\d|
              17|
              69|
              7[014]
            )|
            2(?:
              17|
";
   "              5[0-36-8]|
              69|
              70
            )|
            3(?:
              17|
              2[14-689]|
              34|
              6[289]|
              7[01]|
              81
            )|
            4(?:
              17|
              2[0-2]|
              4[06]|
              5[0137]|
              69|
              7[01]
            )|
            5(?:
              17|
              2[0459]|
              69|
              7[01]
            )|
            6(?:
              17|
              25|
              38|
              42|
              69|
              7[01]
            )|
            7(?:
              17|
              2[569]|
              3[13]|
              6[89]|
              7[01]
            )
          )\d{4}
        </nationalNumberPattern>
      </fixedLine>
      <!-- Includes the Switch CDMA Service. -->
      <mobile>
        <possibleLengths national=""9""/>
        <exampleNumber>811234567</exampleNumber>
        <nationalNumberPattern>
          (?:
            60|
            8[1245]
          )\d{7}
        </nationalNumberPattern>
      </mobile>
      <tollFree>
        <possibleLengths national=""9""/>
        <exampleNumber>800123456</exampleNumber>
        <nationalNumberPattern>80\d{7}</nationalNumberPattern>
      </tollFree>
      <premiumRate>
        <possibleLengths national=""9""/>
        <exampleNumber>870123456</exampleNumber>
        <nationalNumberPattern>8701\d{5}</nationalNumberPattern>
      </premiumRate>
      <!-- Including virtual telephone and VOIP services. -->
      <voip>
        <possibleLengths national=""8,9""/>
        <exampleNumber>88612345</exampleNumber>
        <nationalNumberPattern>
          8(?:
            3\d\d|
            86
          )\d{5}
        </nationalNumberPattern>
      </voip>
    </territory>"];
  ["

    <!-- New Caledonia (NC) -->
    <!-- http://www.itu.int/oth/T0202000098/en -->
    <!-- http://www.opt.nc -->
    <territory id=""NC"" countryCode=""687"" internationalPrefix=""00"">
      <availableFormats>
        <!-- 3-digit Shortcodes which would otherwise be formatted as 'XX.X' -->
        <numberFormat pattern=""(\d{3})"">
          <leadingDigits>5[6-8]</leadingDigits>
          <format>$1</format>
          <intlFormat>NA</intlFormat>
        </numberFormat>
        <!-- Fr";
   "om http://www.1012.nc, the lo";
   "cal yellow pages. -->
        <numberFormat pattern=""(\d{2})(\d{2})(\d{2})"">
          <leadingDigits>[02-57-9]</leadingDigits>
          <format>$1.$2.$3</format>
        </numberFormat>
      </availableFormats>
      <generalDesc>
        <nationalNumberPattern>
          (?:
            050|
            [2-57-9]\d\d
          )\d{3}
        </nationalNumberPattern>
      </generalDesc>
      <!-- Including the 88 prefix for public payphones. -->
      <fixedLine>
        <possibleLengths national=""6""/>
        <exampleNumber>201234</exampleNumber>
        <nationalNumberPattern>
          (?:
            2[03-9]|
            3[0-5]|
            4[1-7]|
            88
          )\d{4}
        </nationalNumberPattern>
      </fixedLine>
      <mobile>
        <possibleLengths national=""6""/>
        <exampleNumber>751234</exampleNumber>
        <nationalNumberPattern>
          (?:
            [579]\d|
            8[0-79]
          )\d{4}
        </nationalNumberPattern>
      </mobile>
      <!-- Prefix 050 is added based on user report.
           https://www.enercal.nc/nos-agences/ (click on DUMBEA CENTRE in the list) -->
      <tollFree>
        <possibleLengths national=""6""/>
        <exampleNumber>050012</exampleNumber>
        <nationalNumberPattern>050\d{3}</nationalNumberPattern>
      </tollFree>
      <!-- Listed as ""voice services"", fr";
   "om what we've seen they seem to cost extra. -->
      <!-- Note that OPT lists 3631 as a free short number for caller ID services, but the ITU
";
   "           document says that all 36 numbers are 6 digits. See ShortNumberMetadata.xml for more. -->
      <premiumRate>
        <possibleLengths national=""6""/>
        <exampleNumber>366711</exampleNumber>
        <nationalNumberPattern>36\d{4}</nationalNumberPattern>
      </premiumRate>
    </territory>"];
  ["

    <!-- Niger (NE) -->
    <!-- http://www.itu.int/oth/T020200009B/en -->
    <territory id=""NE"" countryCode=""227"" internationalPrefix=""00"">
      <availableFormats>
        <numberFormat pattern=""(\d{2})(\d{3})(\d{3})"">
          <leadingDigits>08</leadingDigits>
          <format>$1 $2 $3</format>
        </numberFormat>
        <numberFormat pattern=""(\d{2})(\d{2})(\d{2})(\d{2})"">
          <leadingDigits>
            [089]|
            2[013]|
            7[0467]
          </leadingDigits>
          <format>$1 $2 $3 $4</format>
        </numberFormat>
      </availableFormats>
      <generalDesc>
        <nationalNumberPattern>[027-9]\d{7}</nationalNumberPattern>
      </generalDesc>
      <!-- Adding 20 61 fr";
   "om online numbers. -->
      <fixedLine>
        <possibleLengths national=""8""/>
        <exampleNumber>20201234</exampleNumber>
        <nationalNumberPattern>
          2(?:
            0(?:
              20|
              3[1-8]|
              4[13-5]|
              5[14]|
              6[14578]|
              7[1-578]
            )|
            1(?:
              4[145]|
              5[14]|
              6[14-68]|
              7[169]|
              88
            )
          )\d{4}
        </nationalNumberPattern>
      </fixedLine>
      <!-- Added 84, 85, 88, 90, 91, 92, 98 and 99 fr";
   "om online data. Airtel have confirmed that
           they use the 89 and 97 prefixes, and Orange use 92. MOOV started using 95 in Jan
           2014. -->
      <mobile>
        <possibleLengths national=""8""/>
        <exampleNumber>93123456</exampleNumber>
        <nationalNumberPattern>
          (?:
            23|
            7[0467]|
            [89]\d
          )\d{6}
        </nationalNumberPattern>
      </mobile>
      <tollFree>
        <possibleLengths national=""8""/>
        <exampleNumber>08123456</exampleNumber>
        <nationalNumberPattern>08\d{6}</nationalNumberPattern>
      </tollFree>
      <premiumRate>
        <possibleLengths national=""8""/>
        <exampleNumber>09123456</exampleNumber>
";
   "        <nationalNumberPattern>09\d{6}</nationalNumberPattern>
      </premiumRate>
    </territory>"];
  ["

    <!-- Norfolk Island (NF) -->
    <!-- Including numbers for Australian Antarctic stations. -->
    <!-- http://www.itu.int/oth/T020200009D/en -->
    <territory id=""NF"" countryCode=""672"" internationalPrefix=""00""
               nationalPrefixForParsing=""([0-258]\d{4})$"" nationalPrefixTransformRule=""3$1"">
      <availableFormats>
        <numberFormat pattern=""(\d{2})(\d{4})"">
          <leadingDigits>1[0-3]</leadingDigits>
          <format>$1 $2</format>
        </numberFormat>
        <numberFormat pattern=""(\d)(\d{5})"">
          <leadingDigits>[13]</leadingDigits>
          <format>$1 $2</format>
        </numberFormat>
      </availableFormats>
      <generalDesc>
        <nationalNumberPattern>[13]\d{5}</nationalNumberPattern>
      </generalDesc>
      <!-- ITU says all 3X numbers except 38 are fixed-line, but 3[34679] numbers don't seem to
           connect after we tried calling them. -->
      <fixedLine>
        <possibleLengths national=""6"" localOnly=""5""/>
        <exampleNumber>106609</exampleNumber>
        <nationalNumberPattern>
          (?:
            1(?:
              06|
              17|
              28|
              39
            )|
            3[0-2]\d
          )\d{3}
        </nationalNumberPattern>
      </fixedLine>
      <!-- Numbers found online with prefix 35. -->
      <mobile>
        <possibleLengths national=""6"" localOnly=""5""/>
        <exampleNumber>381234</exampleNumber>
        <nationalNumberPattern>
          (?:
            14|
            3[58]
          )\d{4}
        </nationalNumberPattern>
      </mobile>
    </territory>"];
  ["

    <!-- Nigeria (NG) -->
    <!-- http://www.itu.int/oth/T020200009C/en -->
    <!-- https://www.ncc.gov.ng/technology/standards/numbering -->
    <territory id=""NG"" countryCode=""234"" internationalPrefix=""009"" nationalPrefix=""0""
               mobileNumberPortableRegion=""true"">
      <availableFormats>
        <numberFormat pattern=""(\d{3})(\d{3})(\d{3,4})"" nationalPrefixFormattingRule=""$NP$FG"">
          <leadingDigits>[7-9]</leadingDigits>
          <format>$1 $2 $3</format>
        </numberFormat>
        <numberFormat pattern=""(\d{3})(\d{3})(\d{4})"" nationalPrefixFormattingRule=""$NP$FG"">
          <leadingDigits>20[129]</leadingDigits>
          <format>$1 $2 $3</format>
        </numberFormat>
        <numberFormat pattern=""(\d{4})(\d{2})(\d{4})"" nationalPrefixFormattingRule=""$NP$FG"">
          <leadingDigits>2</leadingDigits>
          <format>$1 $2 $3</format>
        </numberFormat>
        <!-- 11-12 digit toll-free and UAN numbers. -->
        <numberFormat pattern=""(\d{3})(\d{4})(\d{4,5})"" nationalPrefixFormattingRule=""$NP$FG"">
          <leadingDigits>[78]</leadingDigits>
          <format>$1 $2 $3</format>
        </numberFormat>
        <!-- 13-14 digit toll-free and UAN numbers. -->
        <numberFormat pattern=""(\d{3})(\d{5})(\d{5,6})"" nationalPrefixFormattingRule=""$NP$FG"">
          <leadingDigits>[78]</leadingDigits>
          <format>$1 $2 $3</format>
        </numberFormat>
      </availableFormats>
      <generalDesc>
        <nationalNumberPattern>
          (?:
            20|
            9\d
          )\d{8}|
          [78]\d{9,13}
        </nationalNumberPattern>
      </generalDesc>
      <fixedLine>
        <possibleLengths national=""10"" localOnly=""6,7""/>
        <exampleNumber>2033123456</exampleNumber>
        <nationalNumberPattern>
          20(?:
            [1259]\d|
            3[013-9]|
            4[1-8]|
            6[024-689]|
            7[1-79]|
            8[2-9]
          )\d{6}
        </nationalNumberPattern>
      </fixedLine>
";
   "      <!-- Added 906 and 907 mobile prefixes based on reports. Prefix 707 is withdrawn as per few
           websites, however 707[0-3] is added based on bug report and online search. -->
      <mobile>
        <possibleLengths national=""10""/>
        <exampleNumber>8021234567</exampleNumber>
        <nationalNumberPattern>
          (?:
            702[0-24-9]|
            819[01]
          )\d{6}|
          (?:
            7(?:
              0[13-9]|
              [12]\d
            )|
            8(?:
              0[1-9]|
              1[0-8]
            )|
            9(?:
              0[1-9]|
              1[1-6]
            )
          )\d{7}
        </nationalNumberPattern>
      </mobile>
      <!-- Info on these numbers fr";
   "om http://www.alphatechnologieslimited.com. -->
      <tollFree>
        <possibleLengths national=""[10-14]""/>
        <exampleNumber>80017591759</exampleNumber>
        <nationalNumberPattern>800\d{7,11}</nationalNumberPattern>
      </tollFree>
      <uan>
        <possibleLengths national=""[10-14]""/>
        <exampleNumber>7001234567</exampleNumber>
        <nationalNumberPattern>700\d{7,11}</nationalNumberPattern>
      </uan>
    </territory>"];
  ["

    <!-- Nicaragua (NI) -->
    <!-- http://www.itu.int/oth/T020200009A/en -->
    <territory id=""NI"" countryCode=""505"" internationalPrefix=""00"">
      <availableFormats>
        <numberFormat pattern=""(\d{4})(\d{4})"">
          <leadingDigits>[125-8]</leadingDigits>
          <format>$1 $2</format>
        </numberFormat>
      </availableFormats>
      <generalDesc>
        <nationalNumberPattern>
          (?:
            1800|
            [25-8]\d{3}
          )\d{4}
        </nationalNumberPattern>
      </generalDesc>
      <fixedLine>
        <possibleLengths national=""8""/>
        <exampleNumber>21234567</exampleNumber>
        <nationalNumberPattern>2\d{7}</nationalNumberPattern>
      </fixedLine>
      <!-- 55[0-7], 57, 58 and 7[5-8] were added fr";
   "om bug reports/numbers found online. -->
      <mobile>
        <possibleLengths national=""8""/>
        <exampleNumber>81234567</exampleNumber>
        <nationalNumberPattern>
          (?:
            5(?:
              5[0-7]|
              [78]\d
            )|
            6(?:
              20|
              3[035]|
              4[045]|
              5[05]|
              77|
              8[1-9]|
              9[059]
            )|
            (?:
              7[5-8]|
              8\d
            )\d
          )\d{5}
        </nationalNumberPattern>
      </mobile>
      <tollFree>
        <possibleLengths national=""8""/>
        <exampleNumber>18001234</exampleNumber>
        <nationalNumberPattern>1800\d{4}</nationalNumberPattern>
      </tollFree>
    </territory>"];
  ["

    <!-- Netherlands (NL) -->
    <!-- http://en.wikipedia.org/wiki/%2B31 -->
    <!-- http://wetten.overheid.nl/BWBR0010198 -->
    <territory id=""NL"" countryCode=""31"" internationalPrefix=""00"" nationalPrefix=""0""
               mobileNumberPortableRegion=""true"">
      <availableFormats>
        <!-- Shortcodes (4 digits). -->
        <numberFormat pattern=""(\d{4})"">
          <leadingDigits>
            1[238]|
            [34]
          </leadingDigits>
          <format>$1</format>
          <intlFormat>NA</intlFormat>
        </numberFormat>
        <!-- National only numbers (no national prefix). -->
        <numberFormat pattern=""(\d{2})(\d{3,4})"">
          <leadingDigits>14</leadingDigits>
          <format>$1 $2</format>
          <intlFormat>NA</intlFormat>
        </numberFormat>
        <!-- Shortcodes (6 digits). -->
        <numberFormat pattern=""(\d{6})"">
          <leadingDigits>1</leadingDigits>
          <format>$1</format>
          <intlFormat>NA</intlFormat>
        </numberFormat>
        <!-- Toll free & premium rate. -->
        <numberFormat pattern=""(\d{3})(\d{4,7})"" nationalPrefixFormattingRule=""$NP$FG"">
          <leadingDigits>[89]0</leadingDigits>
          <format>$1 $2</format>
        </numberFormat>
        <numberFormat pattern=""(\d{2})(\d{7})"" nationalPrefixFormattingRule=""$NP$FG"">
          <leadingDigits>66</leadingDigits>
          <format>$1 $2</format>
        </numberFormat>
        <numberFormat pattern=""(\d)(\d{8})"" nationalPrefixFormattingRule=""$NP$FG"">
          <leadingDigits>6</leadingDigits>
          <format>$1 $2</format>
        </numberFormat>
        <numberFormat pattern=""(\d{3})(\d{3})(\d{3})"" nationalPrefixFormattingRule=""$NP$FG"">
          <leadingDigits>
            1[16-8]|
            2[259]|
            3[124]|
            4[17-9]|
            5[124679]
          </leadingDigits>
          <format>$1 $2 $3</format>
        </numberFormat>
        <numberFormat pattern=""(\d{2})(\d{3})(\d{4})"" nationalPrefixFormattingRule=""$NP$FG"">
";
   "          <leadingDigits>
            [1-578]|
            91
          </leadingDigits>
          <format>$1 $2 $3</format>
        </numberFormat>
        <!-- For M2M numbers that are used for mobile purposes. -->
        <numberFormat pattern=""(\d{3})(\d{3})(\d{5})"" nationalPrefixFormattingRule=""$NP$FG"">
          <leadingDigits>9</leadingDigits>
          <format>$1 $2 $3</format>
        </numberFormat>
      </availableFormats>
      <generalDesc>
        <nationalNumberPattern>
          (?:
            [124-7]\d\d|
            3(?:
              [02-9]\d|
              1[0-8]
            )
          )\d{6}|
          8\d{6,9}|
          9\d{6,10}|
          1\d{4,5}
        </nationalNumberPattern>
      </generalDesc>
      <noInternationalDialling>
        <possibleLengths national=""5,6""/>
        <nationalNumberPattern>
          140(?:
            1[035]|
            2[0346]|
            3[03568]|
            4[0356]|
            5[0358]|
            8[458]
          )|
          140(?:
            1[16-8]|
            2[259]|
            3[124]|
            4[17-9]|
            5[124679]|
            7
          )\d
        </nationalNumberPattern>
      </noInternationalDialling>
      <fixedLine>
        <possibleLengths national=""9""/>
        <exampleNumber>101234567</exampleNumber>
        <nationalNumberPattern>
          (?:
            1(?:
              [035]\d|
              1[13-578]|
              6[124-8]|
              7[24]|
              8[0-467]
            )|
            2(?:
              [0346]\d|
              2[2-46-9]|
              5[125]|
              9[479]
            )|
            3(?:
              [03568]\d|
              1[3-8]|
              2[01]|
              4[1-8]
            )|
            4(?:
              [0356]\d|
              1[1-368]|
              7[58]|
              8[15-8]|
              9[23579]
            )|
            5(?:
              [0358]\d|
              [19][1-9]|
              2[1-57-9]|
              4[13-8]|
";
   "              6[126]|
              7[0-3578]
            )|
            7\d\d
          )\d{6}
        </nationalNumberPattern>
      </fixedLine>
      <!-- As per this government.nl's doc some sub ranges of existing 06[1-58] mobile numbers are
           used for M2M purposes (that use mobile networks). But there is no information about these
           sub ranges. The other way is also true, 12 digit 097 M2M numbers are used for mobile
           purposes. More information in https://www.acm.nl/en/publications/information-about-dutch-097-numbers-non-dutch-providers
           Added support just for subrange 970X as these only mentioned as assigned/live. -->
      <mobile>
        <possibleLengths national=""9,11""/>
        <exampleNumber>612345678</exampleNumber>
        <nationalNumberPattern>
          (?:
            6[1-58]|
            970\d
          )\d{7}
        </nationalNumberPattern>
      </mobile>
      <pager>
        <possibleLengths national=""9""/>
        <exampleNumber>662345678</exampleNumber>
        <nationalNumberPattern>66\d{7}</nationalNumberPattern>
      </pager>
      <tollFree>
        <possibleLengths national=""[7-10]""/>
        <exampleNumber>8001234</exampleNumber>
        <nationalNumberPattern>800\d{4,7}</nationalNumberPattern>
      </tollFree>
      <premiumRate>
        <possibleLengths national=""[7-10]""/>
        <exampleNumber>9061234</exampleNumber>
        <nationalNumberPattern>90[069]\d{4,7}</nationalNumberPattern>
      </premiumRate>
      <voip>
        <possibleLengths national=""9""/>
        <exampleNumber>851234567</exampleNumber>
        <nationalNumberPattern>
          (?:
            85|
            91
          )\d{7}
        </nationalNumberPattern>
      </voip>
      <!-- These numbers are used for lo";
   "cal government. They are formed by the appending the lo";
   "cal
           dialling code (including the national prefix 0) after the leading digits ""14"".
           government.nl's doc says 88 range is for premium rate services but only for a period of
";
   "           6 months after its enforcement. Online results and Wikipedia says these are of standard
           cost to en";
   "d users. -->
      <uan>
        <possibleLengths national=""5,6,9""/>
        <exampleNumber>14020</exampleNumber>
        <nationalNumberPattern>
          140(?:
            1[035]|
            2[0346]|
            3[03568]|
            4[0356]|
            5[0358]|
            8[458]
          )|
          (?:
            140(?:
              1[16-8]|
              2[259]|
              3[124]|
              4[17-9]|
              5[124679]|
              7
            )|
            8[478]\d{6}
          )\d
        </nationalNumberPattern>
      </uan>
    </territory>"];
  ["

    <!-- Norway (NO) -->
    <!-- Main region for 'SJ' -->
    <!-- Metadata (excluding fixed-line) should be duplicated in 'SJ'. -->
    <!-- https://nkom.no/telefoni-og-telefonnummer/telefonnummer-og-den-norske-nummerplan/alle-nummerserier-for-norske-telefonnumre/den-norske-nummerplanen-for-telefoni-med-mer-e.164 -->
    <!-- https://en.wikipedia.org/wiki/Telephone_numbers_in_Norway -->
    <territory id=""NO"" mainCountryForCode=""true"" countryCode=""47"" leadingDigits=""[02-689]|7[0-8]""
               internationalPrefix=""00"" mobileNumberPortableRegion=""true"">
      <availableFormats>
        <numberFormat pattern=""(\d{3})(\d{2})(\d{3})"">
          <leadingDigits>8</leadingDigits>
          <format>$1 $2 $3</format>
        </numberFormat>
        <numberFormat pattern=""(\d{2})(\d{2})(\d{2})(\d{2})"">
          <leadingDigits>[2-79]</leadingDigits>
          <format>$1 $2 $3 $4</format>
        </numberFormat>
      </availableFormats>
      <generalDesc>
        <nationalNumberPattern>
          (?:
            0|
            [2-9]\d{3}
          )\d{4}
        </nationalNumberPattern>
      </generalDesc>
      <!-- Excludes Svalbard fixed-line numbers. -->
      <fixedLine>
        <possibleLengths national=""8""/>
        <exampleNumber>21234567</exampleNumber>
        <nationalNumberPattern>
          (?:
            2[1-4]|
            3[1-3578]|
            5[1-35-7]|
            6[1-46-9]|
            7[0-8]
          )\d{6}
        </nationalNumberPattern>
      </fixedLine>
      <!-- Consider adding one more digit for stricter validation (e.g. for 580). TETRA and GSM-R
           numbers are not supported as they are not reachable for all. -->
      <mobile>
        <possibleLengths national=""8""/>
        <exampleNumber>40612345</exampleNumber>
        <nationalNumberPattern>[49]\d{7}</nationalNumberPattern>
      </mobile>
      <tollFree>
        <possibleLengths national=""8""/>
        <exampleNumber>80012345</exampleNumber>
        <nationalNumberPattern>80[01]\d{5}</nationalNumberPattern>
";
   "      </tollFree>
      <premiumRate>
        <possibleLengths national=""8""/>
        <exampleNumber>82012345</exampleNumber>
        <nationalNumberPattern>82[09]\d{5}</nationalNumberPattern>
      </premiumRate>
      <sharedCost>
        <possibleLengths national=""8""/>
        <exampleNumber>81021234</exampleNumber>
        <nationalNumberPattern>
          810(?:
            0[0-6]|
            [2-8]\d
          )\d{3}
        </nationalNumberPattern>
      </sharedCost>
      <personalNumber>
        <possibleLengths national=""8""/>
        <exampleNumber>88012345</exampleNumber>
        <nationalNumberPattern>880\d{5}</nationalNumberPattern>
      </personalNumber>
      <voip>
        <possibleLengths national=""8""/>
        <exampleNumber>85012345</exampleNumber>
        <nationalNumberPattern>85[0-5]\d{5}</nationalNumberPattern>
      </voip>
      <!-- Includes some 810 lo";
   "cal-rate numbers, and long-distance rate numbers.
           04xxx is moved to Shortcodes as it can be used to send SMS as well
           https://www.dnb.no/en/everyday-banking/services/text-message -->
      <uan>
        <possibleLengths national=""5,8""/>
        <exampleNumber>02000</exampleNumber>
        <nationalNumberPattern>
          (?:
            0[235-9]|
            81(?:
              0(?:
                0[7-9]|
                1\d
              )|
              5\d\d
            )
          )\d{3}
        </nationalNumberPattern>
      </uan>
      <voicemail>
        <possibleLengths national=""8""/>
        <exampleNumber>81212345</exampleNumber>
        <nationalNumberPattern>81[23]\d{5}</nationalNumberPattern>
      </voicemail>
    </territory>"];
  ["

    <!-- Nepal (NP) -->
    <!-- http://www.itu.int/oth/T0202000095/en -->
    <!-- http://www.ntc.net.np/mobile/mob_postpaid_number_scheme.php -->
    <!-- http://www.nta.gov.np/en/2012-06-01-11-45-17/2012-06-04-04-26-59/numbering-plan -->
    <territory id=""NP"" countryCode=""977"" internationalPrefix=""00"" nationalPrefix=""0"">
      <availableFormats>
        <!-- Formatting patterns taken fr";
   "om pages like http://www.nepalgov.gov.np -->
        <numberFormat pattern=""(\d)(\d{7})"" nationalPrefixFormattingRule=""$NP$FG"">
          <leadingDigits>1[2-6]</leadingDigits>
          <format>$1-$2</format>
        </numberFormat>
        <numberFormat pattern=""(\d{2})(\d{6})"" nationalPrefixFormattingRule=""$NP$FG"">
          <leadingDigits>
            1[01]|
            [2-8]|
            9(?:
              [1-59]|
              [67][2-6]
            )
          </leadingDigits>
          <format>$1-$2</format>
        </numberFormat>
        <numberFormat pattern=""(\d{3})(\d{7})"">
          <leadingDigits>9</leadingDigits>
          <format>$1-$2</format>
        </numberFormat>
        <!-- 11 digit toll free number -->
        <numberFormat pattern=""(\d{4})(\d{2})(\d{5})"">
          <leadingDigits>1</leadingDigits>
          <format>$1-$2-$3</format>
          <intlFormat>NA</intlFormat>
        </numberFormat>
      </availableFormats>
      <generalDesc>
        <nationalNumberPattern>
          (?:
            1\d|
            9
          )\d{9}|
          [1-9]\d{7}
        </nationalNumberPattern>
      </generalDesc>
      <!-- We don't support Rural Telecommunication Service at the moment since
           we are not sure what type it is. -->
      <fixedLine>
        <possibleLengths national=""8"" localOnly=""6,7""/>
        <exampleNumber>14567890</exampleNumber>
        <nationalNumberPattern>
          (?:
            1[0-6]\d|
            99[02-6]
          )\d{5}|
          (?:
            2[13-79]|
            3[135-8]|
            4[146-9]|
            5[135-7]|
";
   "            6[13-9]|
            7[15-9]|
            8[1-46-9]|
            9[1-7]
          )[2-6]\d{5}
        </nationalNumberPattern>
      </fixedLine>
      <!-- Added prefix 982 per IR21 fr";
   "om the carrier. -->
      <mobile>
        <possibleLengths national=""10""/>
        <exampleNumber>9841234567</exampleNumber>
        <nationalNumberPattern>
          9(?:
            00|
            6[0-3]|
            7[0-24-6]|
            8[0-24-68]
          )\d{7}
        </nationalNumberPattern>
      </mobile>
      <!-- Added prefix 166001 based on https://ntc.net.np/post/toll-free-phone.
           Prefix 1800 is added based on user report. -->
      <tollFree>
        <possibleLengths national=""11""/>
        <exampleNumber>16600101234</exampleNumber>
        <nationalNumberPattern>
          1(?:
            66001|
            800\d\d
          )\d{5}
        </nationalNumberPattern>
      </tollFree>
    </territory>"];
  ["

    <!-- Nauru (NR) -->
    <!-- http://www.itu.int/oth/T0202000094/en -->
    <!-- http://en.wikipedia.org/wiki/Telephone_numbers_in_Nauru -->
    <territory id=""NR"" countryCode=""674"" internationalPrefix=""00"">
      <availableFormats>
        <numberFormat pattern=""(\d{3})(\d{4})"">
          <leadingDigits>[24-9]</leadingDigits>
          <format>$1 $2</format>
        </numberFormat>
      </availableFormats>
      <generalDesc>
        <nationalNumberPattern>
          (?:
            222|
            444|
            (?:
              55|
              8\d
            )\d|
            666|
            777|
            999
          )\d{4}
        </nationalNumberPattern>
      </generalDesc>
      <fixedLine>
        <possibleLengths national=""7""/>
        <exampleNumber>4441234</exampleNumber>
        <nationalNumberPattern>444\d{4}</nationalNumberPattern>
      </fixedLine>
      <mobile>
        <possibleLengths national=""7""/>
        <exampleNumber>5551234</exampleNumber>
        <nationalNumberPattern>
          (?:
            222|
            55[3-9]|
            666|
            777|
            8\d\d|
            999
          )\d{4}
        </nationalNumberPattern>
      </mobile>
    </territory>"];
  ["

    <!-- Niue (NU) -->
    <!-- http://www.itu.int/oth/T02020000EC/en -->
    <!-- http://en.wikipedia.org/wiki/Telephone_numbers_in_Niue -->
    <territory id=""NU"" countryCode=""683"" internationalPrefix=""00"">
      <availableFormats>
        <numberFormat pattern=""(\d{3})(\d{4})"">
          <leadingDigits>8</leadingDigits>
          <format>$1 $2</format>
        </numberFormat>
      </availableFormats>
      <generalDesc>
        <nationalNumberPattern>
          (?:
            [4-7]|
            888\d
          )\d{3}
        </nationalNumberPattern>
      </generalDesc>
      <fixedLine>
        <possibleLengths national=""4""/>
        <exampleNumber>7012</exampleNumber>
        <nationalNumberPattern>[47]\d{3}</nationalNumberPattern>
      </fixedLine>
      <mobile>
        <possibleLengths national=""4,7""/>
        <exampleNumber>8884012</exampleNumber>
        <nationalNumberPattern>
          (?:
            [56]|
            888[1-9]
          )\d{3}
        </nationalNumberPattern>
      </mobile>
    </territory>"];
  ["

    <!-- New Zealand (NZ) -->
    <!-- Includes Ross Dependency, Antarctica -->
    <!-- Does not currently support 083 ""Enhanced voice services"", New Zealand direct service
         numbers and 050 ""Nation-Wide Service"". -->
    <!-- http://www.itu.int/oth/T0202000099/en -->
    <territory id=""NZ"" countryCode=""64"" preferredInternationalPrefix=""00""
               internationalPrefix=""0(?:0|161)"" nationalPrefix=""0"" mobileNumberPortableRegion=""true"">
      <availableFormats>
        <!-- Enhanced voice services -->
        <numberFormat pattern=""(\d{2})(\d{3,8})"" nationalPrefixFormattingRule=""$NP$FG"">
          <leadingDigits>8[1-79]</leadingDigits>
          <format>$1 $2</format>
        </numberFormat>
        <!-- 7, 8-digit va";
   "riable cost (premium rate/toll free). -->
        <numberFormat pattern=""(\d{3})(\d{2})(\d{2,3})"" nationalPrefixFormattingRule=""$NP$FG"">
          <leadingDigits>
            50[036-8]|
            8|
            90
          </leadingDigits>
          <leadingDigits>
            50(?:
              [0367]|
              88
            )|
            8|
            90
          </leadingDigits>
          <format>$1 $2 $3</format>
        </numberFormat>
        <!-- Pattern for fixed-line formats, including Ross Dependency. -->
        <numberFormat pattern=""(\d)(\d{3})(\d{4})"" nationalPrefixFormattingRule=""$NP$FG"">
          <leadingDigits>
            24|
            [346]|
            7[2-57-9]|
            9[2-9]
          </leadingDigits>
          <format>$1 $2 $3</format>
        </numberFormat>
        <!-- 0274, 0210 and toll-free/premium-rate prefixes 0508/0800/0900. -->
        <numberFormat pattern=""(\d{3})(\d{3})(\d{3,4})"" nationalPrefixFormattingRule=""$NP$FG"">
          <leadingDigits>
            2(?:
              10|
              74
            )|
            [589]
          </leadingDigits>
          <format>$1 $2 $3</format>
        </numberFormat>
        <!-- 2Degrees numbers are formatted with 022 separated, since this seems to be more common
";
   "             than writing the first group as 022X based on Google web searches, and is used by
             2Degrees themselves. See formatting on http://www.2degreesmobile.co.nz for an example
             of the latter. We follow the same pattern for 020 (Orcon) and 028 (mixed) numbers. -->
        <numberFormat pattern=""(\d{2})(\d{3,4})(\d{4})"" nationalPrefixFormattingRule=""$NP$FG"">
          <leadingDigits>
            1|
            2[028]
          </leadingDigits>
          <format>$1 $2 $3</format>
        </numberFormat>
        <!-- Mobile numbers do not have exclusive leading digits - formatting depends on number length.
             Vodafone numbers can be 8 digits (without leading 0).""
             Paging numbers and some mobile numbers (Telecom/Vodafone/TelstraClear). -->
        <numberFormat pattern=""(\d{2})(\d{3})(\d{3,5})"" nationalPrefixFormattingRule=""$NP$FG"">
          <leadingDigits>
            2(?:
              [169]|
              7[0-35-9]
            )|
            7
          </leadingDigits>
          <format>$1 $2 $3</format>
        </numberFormat>
      </availableFormats>
      <generalDesc>
        <nationalNumberPattern>
          [1289]\d{9}|
          50\d{5}(?:
            \d{2,3}
          )?|
          [27-9]\d{7,8}|
          (?:
            [34]\d|
            6[0-35-9]
          )\d{6}|
          8\d{4,6}
        </nationalNumberPattern>
      </generalDesc>
      <fixedLine>
        <possibleLengths national=""8"" localOnly=""7""/>
        <exampleNumber>32345678</exampleNumber>
        <nationalNumberPattern>
          240\d{5}|
          (?:
            3[2-79]|
            [49][2-9]|
            6[235-9]|
            7[2-57-9]
          )\d{6}
        </nationalNumberPattern>
      </fixedLine>
      <!-- Includes mobile radio service numbers (e.g. TeamTalk). -->
      <mobile>
        <possibleLengths national=""[8-10]""/>
        <exampleNumber>211234567</exampleNumber>
        <nationalNumberPattern>
          2(?:
            [0-27-9]\d|
";
   "            6
          )\d{6,7}|
          2(?:
            1\d|
            75
          )\d{5}
        </nationalNumberPattern>
      </mobile>
      <!-- These are the toll free patterns used, by Telecom and Telstra/Clear, but they are
           referred to as 'Value-added service' in the phone plan for some reason. 85 numbers are
           not covered, as telecom companies don't seem to support them yet. -->
      <tollFree>
        <possibleLengths national=""[8-10]""/>
        <exampleNumber>800123456</exampleNumber>
        <nationalNumberPattern>
          508\d{6,7}|
          80\d{6,8}
        </nationalNumberPattern>
      </tollFree>
      <!-- The ITU doc says the lengths are 9 to 11, but wikipedia says 8. Online numbers can only
           be found with lengths 8 and 9. 7 digit 'Nation-Wide Service' numbers are also included
           here. -->
      <premiumRate>
        <possibleLengths national=""[7-10]""/>
        <exampleNumber>900123456</exampleNumber>
        <nationalNumberPattern>
          (?:
            1[13-57-9]\d{5}|
            50(?:
              0[08]|
              30|
              66|
              77|
              88
            )
          )\d{3}|
          90\d{6,8}
        </nationalNumberPattern>
      </premiumRate>
      <personalNumber>
        <possibleLengths national=""9""/>
        <exampleNumber>701234567</exampleNumber>
        <nationalNumberPattern>70\d{7}</nationalNumberPattern>
      </personalNumber>
      <uan>
        <possibleLengths national=""[5-10]""/>
        <exampleNumber>83012378</exampleNumber>
        <nationalNumberPattern>
          8(?:
            1[16-9]|
            22|
            3\d|
            4[045]|
            5[459]|
            6[235-9]|
            7[0-3579]|
            90
          )\d{2,7}
        </nationalNumberPattern>
      </uan>
    </territory>"];
  ["

    <!-- Oman (OM) -->
    <!-- http://www.itu.int/oth/T020200009F/en -->
    <territory id=""OM"" countryCode=""968"" internationalPrefix=""00"" mobileNumberPortableRegion=""true"">
      <availableFormats>
        <numberFormat pattern=""(\d{3})(\d{4,6})"">
          <leadingDigits>[58]</leadingDigits>
          <format>$1 $2</format>
        </numberFormat>
        <numberFormat pattern=""(\d{2})(\d{6})"">
          <leadingDigits>2</leadingDigits>
          <format>$1 $2</format>
        </numberFormat>
        <numberFormat pattern=""(\d{4})(\d{4})"">
          <leadingDigits>[179]</leadingDigits>
          <format>$1 $2</format>
        </numberFormat>
      </availableFormats>
      <generalDesc>
        <nationalNumberPattern>
          (?:
            1505|
            [279]\d{3}|
            500
          )\d{4}|
          800\d{5,6}
        </nationalNumberPattern>
      </generalDesc>
      <fixedLine>
        <possibleLengths national=""8""/>
        <exampleNumber>23123456</exampleNumber>
        <nationalNumberPattern>2[1-6]\d{6}</nationalNumberPattern>
      </fixedLine>
      <mobile>
        <possibleLengths national=""8""/>
        <exampleNumber>92123456</exampleNumber>
        <nationalNumberPattern>
          (?:
            1505|
            90[1-9]\d
          )\d{4}|
          (?:
            7[124-9]|
            9[1-9]
          )\d{6}
        </nationalNumberPattern>
      </mobile>
      <!-- Link to document about toll-free numbers on http://www.tra.gov.om, which suggests they
           should be 8007 followed by 4 digits. However, the only examples I can find, including
           the customer help line for the main telephony company there (omantel), is 8007 followed
           by 5 digits, so am allowing both for now to be on the safe side. 500 numbers seem to
           offer international toll-free dialing numbers - +968 500 1300 for international help
           desk for omantel, for example. Toll-free numbers 800[05] are added based on user report
";
   "           and not official docs. -->
      <tollFree>
        <possibleLengths national=""[7-9]""/>
        <exampleNumber>80071234</exampleNumber>
        <nationalNumberPattern>
          8007\d{4,5}|
          (?:
            500|
            800[05]
          )\d{4}
        </nationalNumberPattern>
      </tollFree>
      <premiumRate>
        <possibleLengths national=""8""/>
        <exampleNumber>90012345</exampleNumber>
        <nationalNumberPattern>900\d{5}</nationalNumberPattern>
      </premiumRate>
    </territory>"];
  ["

    <!-- Panama (PA) -->
    <!-- Last read July 9, 2014. -->
    <!-- Omits the fact that mobile phones are 8 digits long. -->
    <!-- https://asep.gob.pa/direcciones/telecomunicaciones/pnn/ -->
    <!-- http://en.wikipedia.org/wiki/%2B507 -->
    <territory id=""PA"" countryCode=""507"" internationalPrefix=""00"" mobileNumberPortableRegion=""true"">
      <availableFormats>
        <numberFormat pattern=""(\d{3})(\d{4})"">
          <leadingDigits>[1-57-9]</leadingDigits>
          <format>$1-$2</format>
        </numberFormat>
        <numberFormat pattern=""(\d{4})(\d{4})"">
          <leadingDigits>[68]</leadingDigits>
          <format>$1-$2</format>
        </numberFormat>
        <numberFormat pattern=""(\d{3})(\d{3})(\d{4})"">
          <leadingDigits>8</leadingDigits>
          <format>$1 $2 $3</format>
        </numberFormat>
      </availableFormats>
      <generalDesc>
        <nationalNumberPattern>
          (?:
            00800|
            8\d{3}
          )\d{6}|
          [68]\d{7}|
          [1-57-9]\d{6}
        </nationalNumberPattern>
      </generalDesc>
      <!-- Note that numbers starting with 101, 106, 131, 151, 156 and 168 have not been assigned
           to any rule below since we are not sure what the ""servicios 102/103"" refer to here. -->
      <!-- Note that ""servicios 101/104"" in the plan refer to ""Lo";
   "cal Basic Communications Service""
           and ""Public and Semipublic Terminal Service"", represented here as fixed-line. -->
      <!-- The range 194-XXXX has been added since a number was found online with this prefix and
           proved to be diallable. -->
      <fixedLine>
        <possibleLengths national=""7""/>
        <exampleNumber>2001234</exampleNumber>
        <nationalNumberPattern>
          (?:
            1(?:
              0\d|
              1[0479]|
              2[37]|
              3[0137]|
              4[147]|
              5[05]|
              6[058]|
              7[0167]|
              8[2358]|
              9[1389]
            )|
";
   "            2(?:
              [0235-79]\d|
              1[0-7]|
              4[013-9]|
              8[02-9]
            )|
            3(?:
              [0147-9]\d|
              [25][0-5]|
              33|
              6[068]
            )|
            4(?:
              00|
              3[0-579]|
              4\d|
              7[0-57-9]
            )|
            5(?:
              [01]\d|
              2[0-7]|
              [56]0|
              79
            )|
            7(?:
              0[09]|
              2[0-26-8]|
              3[03]|
              4[04]|
              5[05-9]|
              6[0156]|
              7[0-24-9]|
              8[4-9]|
              90
            )|
            8(?:
              09|
              2[89]|
              3\d|
              4[0-24-689]|
              5[014]|
              8[02]
            )|
            9(?:
              0[5-9]|
              1[0135-8]|
              2[036-9]|
              3[35-79]|
              40|
              5[0457-9]|
              6[05-9]|
              7[04-9]|
              8[35-8]|
              9\d
            )
          )\d{4}
        </nationalNumberPattern>
      </fixedLine>
      <!-- Note that ""servicios 106/107"" in the plan refer to mobile services. We also in";
   "clude
           service ""210"", ""Servicio de Busca Personas"". -->
      <mobile>
        <possibleLengths national=""7,8""/>
        <exampleNumber>61234567</exampleNumber>
        <nationalNumberPattern>
          (?:
            1[16]1|
            21[89]|
            6\d{3}|
            8(?:
              1[01]|
              7[23]
            )
          )\d{4}
        </nationalNumberPattern>
      </mobile>
      <!-- Prefix 800 and 00800 of length 9-digit and 11-digit is added based on user
           report.  -->
      <tollFree>
        <possibleLengths national=""7,8,10,11""/>
        <exampleNumber>8001234</exampleNumber>
        <nationalNumberPattern>
          800\d{4,5}|
          (?:
            00800|
";
   "            800\d
          )\d{6}
        </nationalNumberPattern>
      </tollFree>
      <!-- Value-added services are represented as ""400"" in the plan. -->
      <premiumRate>
        <possibleLengths national=""7""/>
        <exampleNumber>8601234</exampleNumber>
        <nationalNumberPattern>
          (?:
            8(?:
              22|
              55|
              60|
              7[78]|
              86
            )|
            9(?:
              00|
              81
            )
          )\d{4}
        </nationalNumberPattern>
      </premiumRate>
    </territory>"];
  ["

    <!-- Peru (PE) -->
    <!-- http://www.itu.int/oth/T02020000A6/en -->
    <!-- http://en.wikipedia.org/wiki/+51 -->
    <!-- http://www.assistbook.com/South%20America/Peru/widecodes -->
    <territory id=""PE"" countryCode=""51"" preferredInternationalPrefix=""00""
               internationalPrefix=""00|19(?:1[124]|77|90)00"" nationalPrefix=""0""
               preferredExtnPrefix="" Anexo "" mobileNumberPortableRegion=""true"">
      <availableFormats>
        <numberFormat pattern=""(\d{3})(\d{5})"" nationalPrefixFormattingRule=""($NP$FG)"">
          <leadingDigits>80</leadingDigits>
          <format>$1 $2</format>
        </numberFormat>
        <numberFormat pattern=""(\d)(\d{7})"" nationalPrefixFormattingRule=""($NP$FG)"">
          <leadingDigits>1</leadingDigits>
          <format>$1 $2</format>
        </numberFormat>
        <numberFormat pattern=""(\d{2})(\d{6})"" nationalPrefixFormattingRule=""($NP$FG)"">
          <leadingDigits>[4-8]</leadingDigits>
          <format>$1 $2</format>
        </numberFormat>
        <!-- Formatting fr";
   "om common usage found on the internet, supported by ITU doc. -->
        <numberFormat pattern=""(\d{3})(\d{3})(\d{3})"">
          <leadingDigits>9</leadingDigits>
          <format>$1 $2 $3</format>
        </numberFormat>
      </availableFormats>
      <generalDesc>
        <nationalNumberPattern>
          (?:
            [14-8]|
            9\d
          )\d{7}
        </nationalNumberPattern>
      </generalDesc>
      <!-- Looks like not all 1X numbers are land-line numbers in Lima, some of them are allotted
           as IDDs. As it effects parsing of these numbers and no valid numbers found online, not
           supporting 8 digit 191[124], 1977 and 1990 ranges. -->
      <fixedLine>
        <possibleLengths national=""8"" localOnly=""6,7""/>
        <exampleNumber>11234567</exampleNumber>
        <nationalNumberPattern>
          (?:
            (?:
              (?:
                4[34]|
                5[14]
              )[0-8]|
              687
";
   "            )\d|
            7(?:
              173|
              (?:
                3[0-8]|
                55
              )\d
            )|
            8(?:
              10[05689]|
              6(?:
                0[06-9]|
                1[6-9]|
                29
              )|
              7(?:
                0[0569]|
                [56]0
              )
            )
          )\d{4}|
          (?:
            1[0-8]|
            4[12]|
            5[236]|
            6[1-7]|
            7[246]|
            8[2-4]
          )\d{6}
        </nationalNumberPattern>
      </fixedLine>
      <mobile>
        <possibleLengths national=""9""/>
        <exampleNumber>912345678</exampleNumber>
        <nationalNumberPattern>9\d{8}</nationalNumberPattern>
      </mobile>
      <tollFree>
        <possibleLengths national=""8""/>
        <exampleNumber>80012345</exampleNumber>
        <nationalNumberPattern>800\d{5}</nationalNumberPattern>
      </tollFree>
      <premiumRate>
        <possibleLengths national=""8""/>
        <exampleNumber>80512345</exampleNumber>
        <nationalNumberPattern>805\d{5}</nationalNumberPattern>
      </premiumRate>
      <sharedCost>
        <possibleLengths national=""8""/>
        <exampleNumber>80112345</exampleNumber>
        <nationalNumberPattern>801\d{5}</nationalNumberPattern>
      </sharedCost>
      <personalNumber>
        <possibleLengths national=""8""/>
        <exampleNumber>80212345</exampleNumber>
        <nationalNumberPattern>80[24]\d{5}</nationalNumberPattern>
      </personalNumber>
    </territory>"];
  ["

    <!-- French Polynesia (PF) -->
    <!-- http://www.itu.int/oth/T020200004D/en -->
    <territory id=""PF"" countryCode=""689"" internationalPrefix=""00"">
      <availableFormats>
        <numberFormat pattern=""(\d{2})(\d{2})(\d{2})"">
          <leadingDigits>44</leadingDigits>
          <format>$1 $2 $3</format>
        </numberFormat>
        <numberFormat pattern=""(\d{2})(\d{2})(\d{2})(\d{2})"">
          <leadingDigits>
            4|
            8[7-9]
          </leadingDigits>
          <format>$1 $2 $3 $4</format>
        </numberFormat>
        <numberFormat pattern=""(\d{3})(\d{2})(\d{2})(\d{2})"">
          <leadingDigits>8</leadingDigits>
          <format>$1 $2 $3 $4</format>
        </numberFormat>
      </availableFormats>
      <generalDesc>
        <nationalNumberPattern>
          4\d{5}(?:
            \d{2}
          )?|
          8\d{7,8}
        </nationalNumberPattern>
      </generalDesc>
      <noInternationalDialling>
        <possibleLengths national=""6""/>
        <nationalNumberPattern>44\d{4}</nationalNumberPattern>
      </noInternationalDialling>
      <!-- Includes payphone prefixes. -->
      <fixedLine>
        <possibleLengths national=""8""/>
        <exampleNumber>40412345</exampleNumber>
        <nationalNumberPattern>
          4(?:
            0[4-689]|
            9[4-68]
          )\d{5}
        </nationalNumberPattern>
      </fixedLine>
      <mobile>
        <possibleLengths national=""8""/>
        <exampleNumber>87123456</exampleNumber>
        <nationalNumberPattern>8[7-9]\d{6}</nationalNumberPattern>
      </mobile>
      <!-- As per ARCEP, mainland France and overseas territories use 0800 to 0805 as Toll-free
           numbers. -->
      <tollFree>
        <possibleLengths national=""9""/>
        <exampleNumber>800012345</exampleNumber>
        <nationalNumberPattern>80[0-5]\d{6}</nationalNumberPattern>
      </tollFree>
      <voip>
        <possibleLengths national=""8""/>
        <exampleNumber>49901234</exampleNumber>
        <nationalNumberPattern>499\d{5}</nationalNumberPattern>
";
   "      </voip>
      <uan>
        <possibleLengths national=""6""/>
        <exampleNumber>440123</exampleNumber>
        <nationalNumberPattern>44\d{4}</nationalNumberPattern>
      </uan>
    </territory>"];
  ["

    <!-- Papua New Guinea (PG) -->
    <!-- http://www.itu.int/oth/T02020000A4/en -->
    <!-- http://en.wikipedia.org/wiki/%2B675 -->
    <!-- http://nicta.gov.pg/search?searchword=numbering%20plan -->
    <territory id=""PG"" countryCode=""675"" preferredInternationalPrefix=""00""
               internationalPrefix=""00|140[1-3]"">
      <availableFormats>
        <numberFormat pattern=""(\d{3})(\d{4})"">
          <leadingDigits>
            18|
            [2-69]|
            85
          </leadingDigits>
          <format>$1 $2</format>
        </numberFormat>
        <numberFormat pattern=""(\d{4})(\d{4})"">
          <leadingDigits>[78]</leadingDigits>
          <format>$1 $2</format>
        </numberFormat>
      </availableFormats>
      <generalDesc>
        <nationalNumberPattern>
          (?:
            180|
            [78]\d{3}
          )\d{4}|
          (?:
            [2-589]\d|
            64
          )\d{5}
        </nationalNumberPattern>
      </generalDesc>
      <fixedLine>
        <possibleLengths national=""7""/>
        <exampleNumber>3123456</exampleNumber>
        <nationalNumberPattern>
          (?:
            (?:
              3[0-2]|
              4[257]|
              5[34]|
              9[78]
            )\d|
            64[1-9]|
            85[02-46-9]
          )\d{4}
        </nationalNumberPattern>
      </fixedLine>
      <mobile>
        <possibleLengths national=""8""/>
        <exampleNumber>70123456</exampleNumber>
        <nationalNumberPattern>
          (?:
            7\d|
            8[1-48]
          )\d{6}
        </nationalNumberPattern>
      </mobile>
      <pager>
        <possibleLengths national=""7""/>
        <exampleNumber>2700123</exampleNumber>
        <nationalNumberPattern>27[01]\d{4}</nationalNumberPattern>
      </pager>
      <tollFree>
        <possibleLengths national=""7""/>
        <exampleNumber>1801234</exampleNumber>
        <nationalNumberPattern>180\d{4}</nationalNumberPattern>
      </tollFree>
      <!-- Including all satellite numbers fr";
   "om the ITU doc here, as we found working numbers
";
   "           online. -->
      <voip>
        <possibleLengths national=""7""/>
        <exampleNumber>2751234</exampleNumber>
        <nationalNumberPattern>
          2(?:
            0[0-57]|
            7[568]
          )\d{4}
        </nationalNumberPattern>
      </voip>
    </territory>"];
  ["

    <!-- Philippines (PH) -->
    <!-- http://en.wikipedia.org/wiki/%2B63 -->
    <territory id=""PH"" countryCode=""63"" internationalPrefix=""00"" nationalPrefix=""0"">
      <availableFormats>
        <numberFormat pattern=""(\d)(\d{5})"" nationalPrefixFormattingRule=""($NP$FG)"">
          <leadingDigits>2</leadingDigits>
          <format>$1 $2</format>
        </numberFormat>
        <numberFormat pattern=""(\d{4})(\d{4,6})"" nationalPrefixFormattingRule=""($NP$FG)"">
          <leadingDigits>
            3(?:
              23|
              39|
              46
            )|
            4(?:
              2[3-6]|
              [35]9|
              4[26]|
              76
            )|
            544|
            88[245]|
            (?:
              52|
              64|
              86
            )2
          </leadingDigits>
          <leadingDigits>
            3(?:
              230|
              397|
              461
            )|
            4(?:
              2(?:
                35|
                [46]4|
                51
              )|
              396|
              4(?:
                22|
                63
              )|
              59[347]|
              76[15]
            )|
            5(?:
              221|
              446
            )|
            642[23]|
            8(?:
              622|
              8(?:
                [24]2|
                5[13]
              )
            )
          </leadingDigits>
          <format>$1 $2</format>
        </numberFormat>
        <numberFormat pattern=""(\d{5})(\d{4})"" nationalPrefixFormattingRule=""($NP$FG)"">
          <leadingDigits>
            346|
            4(?:
              27|
              9[35]
            )|
            883
          </leadingDigits>
          <leadingDigits>
            3469|
            4(?:
              279|
              9(?:
                30|
                56
              )
            )|
            8834
          </leadingDigits>
          <format>$1 $2</format>
";
   "        </numberFormat>
        <numberFormat pattern=""(\d)(\d{4})(\d{4})"" nationalPrefixFormattingRule=""($NP$FG)"">
          <leadingDigits>2</leadingDigits>
          <format>$1 $2 $3</format>
        </numberFormat>
        <numberFormat pattern=""(\d{2})(\d{3})(\d{4})"" nationalPrefixFormattingRule=""($NP$FG)"">
          <leadingDigits>
            [3-7]|
            8[2-8]
          </leadingDigits>
          <format>$1 $2 $3</format>
        </numberFormat>
        <numberFormat pattern=""(\d{3})(\d{3})(\d{4})"" nationalPrefixFormattingRule=""$NP$FG"">
          <leadingDigits>[89]</leadingDigits>
          <format>$1 $2 $3</format>
        </numberFormat>
        <!-- Formatting fr";
   "om http://www.uniontelecard.com/calling-guides/philippines/guide1.aspx -->
        <numberFormat pattern=""(\d{4})(\d{3})(\d{4})"">
          <leadingDigits>1</leadingDigits>
          <format>$1 $2 $3</format>
        </numberFormat>
        <numberFormat pattern=""(\d{4})(\d{1,2})(\d{3})(\d{4})"">
          <leadingDigits>1</leadingDigits>
          <format>$1 $2 $3 $4</format>
        </numberFormat>
      </availableFormats>
      <generalDesc>
        <nationalNumberPattern>
          (?:
            [2-7]|
            9\d
          )\d{8}|
          2\d{5}|
          (?:
            1800|
            8
          )\d{7,9}
        </nationalNumberPattern>
      </generalDesc>
      <!-- Evidence on number length is hard to come by. We have found diallable numbers in Manila
           that have only 5 digits after the area code; plus it seems the 8822 area code is
           followed by 6 digits, and 8842 by only 4. Subscriber number of area code 02 are migrated
           fr";
   "om 7 digit to 8 digit since 6th October 2019. -->
      <fixedLine>
        <possibleLengths national=""6,[8-10]"" localOnly=""4,5,7""/>
        <exampleNumber>232345678</exampleNumber>
        <nationalNumberPattern>
          (?:
            (?:
              2[3-8]|
              3[2-68]|
              4[2-9]|
              5[2-6]|
";
   "              6[2-58]|
              7[24578]
            )\d{3}|
            88(?:
              22\d\d|
              42
            )
          )\d{4}|
          (?:
            2|
            8[2-8]\d\d
          )\d{5}
        </nationalNumberPattern>
      </fixedLine>
      <!-- 950 added based on info received fr";
   "om Smart. 96[5-7] added based on user report. -->
      <mobile>
        <possibleLengths national=""10""/>
        <exampleNumber>9051234567</exampleNumber>
        <nationalNumberPattern>
          (?:
            8(?:
              1[37]|
              9[5-8]
            )|
            9(?:
              0[5-9]|
              1[0-24-9]|
              [235-7]\d|
              4[2-9]|
              8[135-9]|
              9[1-9]
            )
          )\d{7}
        </nationalNumberPattern>
      </mobile>
      <!-- Information on toll-free numbers collected fr";
   "om searching the internet -->
      <tollFree>
        <possibleLengths national=""[11-13]""/>
        <exampleNumber>180012345678</exampleNumber>
        <nationalNumberPattern>1800\d{7,9}</nationalNumberPattern>
      </tollFree>
    </territory>"];
  ["

    <!-- Pakistan (PK) -->
    <!-- http://www.itu.int/oth/T02020000A1/en -->
    <!-- http://en.wikipedia.org/wiki/%2B92 -->
    <territory id=""PK"" countryCode=""92"" internationalPrefix=""00"" nationalPrefix=""0""
               mobileNumberPortableRegion=""true"">
      <availableFormats>
        <!-- Toll-free and premium-rate numbers. -->
        <numberFormat pattern=""(\d{3})(\d{3})(\d{2,7})"" nationalPrefixFormattingRule=""$NP$FG"">
          <leadingDigits>[89]0</leadingDigits>
          <format>$1 $2 $3</format>
        </numberFormat>
        <!-- Personal numbers.
             https://propakistani.pk/2010/06/10/ptcl-launches-personal-gl";
   "obal-number/ has it
             listed as being dialled without the national prefix. -->
        <numberFormat pattern=""(\d{4})(\d{5})"">
          <leadingDigits>1</leadingDigits>
          <format>$1 $2</format>
        </numberFormat>
        <!-- Fixed-line numbers with 3 digits in first group. -->
        <numberFormat pattern=""(\d{3})(\d{6,7})"" nationalPrefixFormattingRule=""($NP$FG)"">
          <leadingDigits>
            2(?:
              3[2358]|
              4[2-4]|
              9[2-8]
            )|
            45[3479]|
            54[2-467]|
            60[468]|
            72[236]|
            8(?:
              2[2-689]|
              3[23578]|
              4[3478]|
              5[2356]
            )|
            9(?:
              2[2-8]|
              3[27-9]|
              4[2-6]|
              6[3569]|
              9[25-8]
            )
          </leadingDigits>
          <leadingDigits>
            9(?:
              2[3-8]|
              98
            )|
            (?:
              2(?:
                3[2358]|
                4[2-4]|
                9[2-8]
              )|
              45[3479]|
              54[2-467]|
              60[468]|
              72[236]|
              8(?:
                2[2-689]|
                3[23578]|
                4[3478]|
                5[2356]
              )|
              9(?:
";
   "                22|
                3[27-9]|
                4[2-6]|
                6[3569]|
                9[25-7]
              )
            )[2-9]
          </leadingDigits>
          <format>$1 $2</format>
        </numberFormat>
        <!-- Fixed-line numbers with 2 digits in first group. -->
        <numberFormat pattern=""(\d{2})(\d{7,8})"" nationalPrefixFormattingRule=""($NP$FG)"">
          <leadingDigits>
            (?:
              2[125]|
              4[0-246-9]|
              5[1-35-7]|
              6[1-8]|
              7[14]|
              8[16]|
              91
            )[2-9]
          </leadingDigits>
          <format>$1 $2</format>
        </numberFormat>
        <!-- Fixed-line numbers with 5 digits in first group.
             586 was seen in this format online.
             581 and 582 are added here because our best is guess is they behave like 586, given
             these are the only fixed-line numbers where the second group doesn't start with [2-9]. -->
        <numberFormat pattern=""(\d{5})(\d{5})"" nationalPrefixFormattingRule=""($NP$FG)"">
          <leadingDigits>58</leadingDigits>
          <format>$1 $2</format>
        </numberFormat>
        <!-- Mobile numbers. -->
        <numberFormat pattern=""(\d{3})(\d{7})"" nationalPrefixFormattingRule=""$NP$FG"">
          <leadingDigits>3</leadingDigits>
          <format>$1 $2</format>
        </numberFormat>
        <!-- 11-digit UAN numbers (formatted to imply an area code but since there's not enough evidence that
             the first group is actually optional, we don't assign an area code length to these ranges yet). -->
        <numberFormat pattern=""(\d{2})(\d{3})(\d{3})(\d{3})"" nationalPrefixFormattingRule=""($NP$FG)"">
          <leadingDigits>
            2[125]|
            4[0-246-9]|
            5[1-35-7]|
            6[1-8]|
            7[14]|
            8[16]|
            91
          </leadingDigits>
          <format>$1 $2 $3 $4</format>
        </numberFormat>
        <!-- 12-digit UAN numbers (formatted to imply an area code but it's not optional). -->
";
   "        <numberFormat pattern=""(\d{3})(\d{3})(\d{3})(\d{3})"" nationalPrefixFormattingRule=""($NP$FG)"">
          <leadingDigits>[24-9]</leadingDigits>
          <format>$1 $2 $3 $4</format>
        </numberFormat>
      </availableFormats>
      <generalDesc>
        <nationalNumberPattern>
          122\d{6}|
          [24-8]\d{10,11}|
          9(?:
            [013-9]\d{8,10}|
            2(?:
              [01]\d\d|
              2(?:
                [06-8]\d|
                1[01]
              )
            )\d{7}
          )|
          (?:
            [2-8]\d{3}|
            92(?:
              [0-7]\d|
              8[1-9]
            )
          )\d{6}|
          [24-9]\d{8}|
          [89]\d{7}
        </nationalNumberPattern>
      </generalDesc>
      <!-- The subscriber number length is not well de";
   "fined for some area codes. Fr";
   "om online
           examples, we have come up with a heuristic that for 3-digit area codes, the subscriber
           number will be 6 or 7 digits - for 2-digit area codes it will be 7, with the exceptions
           of Karachi and Lahore (both 8). -->
      <fixedLine>
        <possibleLengths national=""9,10"" localOnly=""[5-8]""/>
        <exampleNumber>2123456789</exampleNumber>
        <nationalNumberPattern>
          (?:
            (?:
              21|
              42
            )[2-9]|
            58[126]
          )\d{7}|
          (?:
            2[25]|
            4[0146-9]|
            5[1-35-7]|
            6[1-8]|
            7[14]|
            8[16]|
            91
          )[2-9]\d{6,7}|
          (?:
            2(?:
              3[2358]|
              4[2-4]|
              9[2-8]
            )|
            45[3479]|
            54[2-467]|
            60[468]|
            72[236]|
            8(?:
              2[2-689]|
              3[23578]|
              4[3478]|
              5[2356]
            )|
            9(?:
              2[2-8]|
              3[27-9]|
              4[2-6]|
              6[3569]|
              9[25-8]
";
   "            )
          )[2-9]\d{5,6}
        </nationalNumberPattern>
      </fixedLine>
      <!-- Adding 325 and 320 as SMSs have been successfully sent to these numbers and numbers
           can be found online with these prefixes. Added 348 based on information found
           online. -->
      <mobile>
        <possibleLengths national=""10""/>
        <exampleNumber>3012345678</exampleNumber>
        <nationalNumberPattern>
          3(?:
            [0-247]\d|
            3[0-79]|
            55|
            64
          )\d{7}
        </nationalNumberPattern>
      </mobile>
      <!-- Prefix 800 (11 digits) added based on user report. -->
      <tollFree>
        <possibleLengths national=""8,11""/>
        <exampleNumber>80012345</exampleNumber>
        <nationalNumberPattern>
          800\d{5}(?:
            \d{3}
          )?
        </nationalNumberPattern>
      </tollFree>
      <premiumRate>
        <possibleLengths national=""8""/>
        <exampleNumber>90012345</exampleNumber>
        <nationalNumberPattern>900\d{5}</nationalNumberPattern>
      </premiumRate>
      <!-- These are referred to as UPT numbers in the plan. -->
      <!-- The example number here is the test number fr";
   "om the plan. -->
      <personalNumber>
        <possibleLengths national=""9""/>
        <exampleNumber>122044444</exampleNumber>
        <nationalNumberPattern>122\d{6}</nationalNumberPattern>
      </personalNumber>
      <!-- Data on what a UAN is is hard to come by. http://www.ptcl.com.pk has information under
           http://www.ptcl.com.pk/contentb.php?NID=143#uan - which defines their format - but not
           what type of number they are. We exclude Azad Jammu, Kashmir and Northern Areas here
           since no online example UANs can be found, and they have an ""access code"" at the start,
           making it difficult to guess what a UAN in these areas would look like. -->
      <uan>
        <possibleLengths national=""11,12""/>
        <exampleNumber>21111825888</exampleNumber>
";
   "        <nationalNumberPattern>
          (?:
            2(?:
              [125]|
              3[2358]|
              4[2-4]|
              9[2-8]
            )|
            4(?:
              [0-246-9]|
              5[3479]
            )|
            5(?:
              [1-35-7]|
              4[2-467]
            )|
            6(?:
              0[468]|
              [1-8]
            )|
            7(?:
              [14]|
              2[236]
            )|
            8(?:
              [16]|
              2[2-689]|
              3[23578]|
              4[3478]|
              5[2356]
            )|
            9(?:
              1|
              22|
              3[27-9]|
              4[2-6]|
              6[3569]|
              9[2-7]
            )
          )111\d{6}
        </nationalNumberPattern>
      </uan>
    </territory>"];
  ["

    <!-- Poland (PL) -->
    <!-- Source is in Polish. -->
    <!-- http://en.wikipedia.org/wiki/%2B48 -->
    <!-- http://www.itu.int/oth/T02020000A8/en -->
    <!-- http://www.uke.gov.pl/tablice/home.do?execution=e1s1 -->
    <!-- http://www.sgwp.wp.mil.pl/pl/1_1225.html -->
    <territory id=""PL"" countryCode=""48"" internationalPrefix=""00"" mobileNumberPortableRegion=""true"">
      <availableFormats>
        <!-- 5-digit shortcodes. -->
        <numberFormat pattern=""(\d{5})"">
          <leadingDigits>19</leadingDigits>
          <format>$1</format>
        </numberFormat>
        <!-- 6-digit shortcodes and other ranges (e.g. pager). -->
        <numberFormat pattern=""(\d{3})(\d{3})"">
          <leadingDigits>
            11|
            20|
            64
          </leadingDigits>
          <format>$1 $2</format>
        </numberFormat>
        <!-- 7-digit fixed-line numbers. -->
        <numberFormat pattern=""(\d{2})(\d{2})(\d{3})"">
          <leadingDigits>
            30|
            (?:
              1[2-8]|
              2[2-69]|
              3[2-4]|
              4[1-468]|
              5[24-689]|
              6[1-3578]|
              7[14-7]|
              8[1-79]|
              9[145]
            )1
          </leadingDigits>
          <leadingDigits>
            30|
            (?:
              1[2-8]|
              2[2-69]|
              3[2-4]|
              4[1-468]|
              5[24-689]|
              6[1-3578]|
              7[14-7]|
              8[1-79]|
              9[145]
            )19
          </leadingDigits>
          <format>$1 $2 $3</format>
        </numberFormat>
        <!-- 7-8 digit pager numbers. -->
        <numberFormat pattern=""(\d{3})(\d{2})(\d{2,3})"">
          <leadingDigits>64</leadingDigits>
          <format>$1 $2 $3</format>
        </numberFormat>
        <!-- Mobile, pager and a few fixed-line numbers.
             (70 numbers are formatted as per mobile numbers, based on information fr";
   "om some Polish people). -->
";
   "        <numberFormat pattern=""(\d{3})(\d{3})(\d{3})"">
          <leadingDigits>
            21|
            39|
            45|
            5[0137]|
            6[0469]|
            7[02389]|
            8(?:
              0[14]|
              8
            )
          </leadingDigits>
          <format>$1 $2 $3</format>
        </numberFormat>
        <!-- 9-digit fixed-line numbers. -->
        <numberFormat pattern=""(\d{2})(\d{3})(\d{2})(\d{2})"">
          <leadingDigits>
            1[2-8]|
            [2-7]|
            8[1-79]|
            9[145]
          </leadingDigits>
          <format>$1 $2 $3 $4</format>
        </numberFormat>
        <!-- 9-10 digit toll free numbers. -->
        <numberFormat pattern=""(\d{3})(\d{3})(\d{3,4})"">
          <leadingDigits>8</leadingDigits>
          <format>$1 $2 $3</format>
        </numberFormat>
      </availableFormats>
      <generalDesc>
        <nationalNumberPattern>
          (?:
            6|
            8\d\d
          )\d{7}|
          [1-9]\d{6}(?:
            \d{2}
          )?|
          [26]\d{5}
        </nationalNumberPattern>
      </generalDesc>
      <!-- The plan says all geographical numbers are 9 digits; but we found customer service
           numbers 19XXX that can be diallable along with valid area code and are 7 digits
           instead, so we support those numbers too. See:
           http://www.polskasiectaxi.pl/pst/pst-partnerzy.
           Numbers which start with 26 are allocated for the military, see:
           http://www.sgwp.wp.mil.pl/pl/1_1225.html.
           Numbers which start with 47 are allocated for police, see:
           https://policja.pl/pol/aktualnosci/185570,Uwaga-Zmieniaja-sie-numery-telefonow-do-jednostek-Policji-w-calym-kraju.html -->
      <fixedLine>
        <possibleLengths national=""7,9""/>
        <exampleNumber>123456789</exampleNumber>
        <nationalNumberPattern>
          (?:
            30|
            47\d\d
          )\d{5}|
          (?:
            1[2-8]|
";
   "            2[2-69]|
            3[2-4]|
            4[1-468]|
            5[24-689]|
            6[1-3578]|
            7[14-7]|
            8[1-79]|
            9[145]
          )(?:
            [02-9]\d{6}|
            1(?:
              [0-8]\d{5}|
              9\d{3}(?:
                \d{2}
              )?
            )
          )
        </nationalNumberPattern>
      </fixedLine>
      <mobile>
        <possibleLengths national=""9""/>
        <exampleNumber>512345678</exampleNumber>
        <nationalNumberPattern>
          21(?:
            1[013-5]|
            2\d|
            3[1-9]
          )\d{5}|
          (?:
            45|
            5[0137]|
            6[069]|
            7[2389]|
            88
          )\d{7}
        </nationalNumberPattern>
      </mobile>
      <pager>
        <possibleLengths national=""[6-9]""/>
        <exampleNumber>641234567</exampleNumber>
        <nationalNumberPattern>64\d{4,7}</nationalNumberPattern>
      </pager>
      <!-- Prefix 800 with 10 digits added based on user report. -->
      <tollFree>
        <possibleLengths national=""9,10""/>
        <exampleNumber>800123456</exampleNumber>
        <nationalNumberPattern>800\d{6,7}</nationalNumberPattern>
      </tollFree>
      <premiumRate>
        <possibleLengths national=""9""/>
        <exampleNumber>701234567</exampleNumber>
        <nationalNumberPattern>70[01346-8]\d{6}</nationalNumberPattern>
      </premiumRate>
      <sharedCost>
        <possibleLengths national=""9""/>
        <exampleNumber>801234567</exampleNumber>
        <nationalNumberPattern>801\d{6}</nationalNumberPattern>
      </sharedCost>
      <voip>
        <possibleLengths national=""9""/>
        <exampleNumber>391234567</exampleNumber>
        <nationalNumberPattern>39\d{7}</nationalNumberPattern>
      </voip>
      <uan>
        <possibleLengths national=""9""/>
        <exampleNumber>804123456</exampleNumber>
        <nationalNumberPattern>804\d{6}</nationalNumberPattern>
      </uan>
    </territory>"];
  ["

    <!-- St. Pierre & Miquelon (PM) -->
    <!-- http://www.itu.int/oth/T02020000B2/en -->
    <territory id=""PM"" countryCode=""508"" internationalPrefix=""00"" nationalPrefix=""0"">
      <availableFormats>
        <numberFormat pattern=""(\d{2})(\d{2})(\d{2})"" nationalPrefixFormattingRule=""$NP$FG"">
          <leadingDigits>[2-9]</leadingDigits>
          <format>$1 $2 $3</format>
        </numberFormat>
        <numberFormat pattern=""(\d{3})(\d{3})(\d{3})"">
          <leadingDigits>7</leadingDigits>
          <format>$1 $2 $3</format>
        </numberFormat>
        <numberFormat pattern=""(\d{3})(\d{2})(\d{2})(\d{2})"" nationalPrefixFormattingRule=""$NP$FG"">
          <leadingDigits>8</leadingDigits>
          <format>$1 $2 $3 $4</format>
        </numberFormat>
      </availableFormats>
      <generalDesc>
        <nationalNumberPattern>
          [78]\d{8}|
          [2-9]\d{5}
        </nationalNumberPattern>
      </generalDesc>
      <!-- Fixed-line and mobile numbers do not in";
   "clude any main prefix (like country code)
           before subscriber number unlike other French territories as they can be dialled
           directly using subscriber number after country code in E.164 format. 4[23] and 50
           ranges are added to both fixed-line and mobile categories as it is not clear in ITU
           doc. -->
      <fixedLine>
        <possibleLengths national=""6,9""/>
        <exampleNumber>430123</exampleNumber>
        <nationalNumberPattern>
          80[6-9]\d{6}|
          (?:
            [236-9]\d|
            4[1-35-9]|
            5[0-47-9]
          )\d{4}
        </nationalNumberPattern>
      </fixedLine>
      <!-- 44 XXXX might be a mobile range as it is assigned to Globaltel. Category is not
           mentioned in the ITU doc. -->
      <mobile>
        <possibleLengths national=""6,9""/>
        <exampleNumber>551234</exampleNumber>
        <nationalNumberPattern>
          708(?:
            4[0-5]|
            5[0-6]
          )\d{4}|
          (?:
";
   "            [236-9]\d|
            4[02-489]|
            5[02-9]
          )\d{4}
        </nationalNumberPattern>
      </mobile>
      <!-- As per ARCEP, mainland France and overseas territories use 0800 to 0805 as Toll-free
           numbers. -->
      <tollFree>
        <possibleLengths national=""9""/>
        <exampleNumber>800012345</exampleNumber>
        <nationalNumberPattern>80[0-5]\d{6}</nationalNumberPattern>
      </tollFree>
      <premiumRate>
        <possibleLengths national=""9""/>
        <exampleNumber>810123456</exampleNumber>
        <nationalNumberPattern>8[129]\d{7}</nationalNumberPattern>
      </premiumRate>
    </territory>"];
  ["

    <!-- Puerto Rico (PR) -->
    <!-- Calling code and formatting shared with 'US' -->
    <!-- http://www.itu.int/oth/T02020000AA/en -->
    <territory id=""PR"" countryCode=""1"" leadingDigits=""787|939"" internationalPrefix=""011""
               nationalPrefix=""1"" mobileNumberPortableRegion=""true"">
      <generalDesc>
        <nationalNumberPattern>
          (?:
            [589]\d\d|
            787
          )\d{7}
        </nationalNumberPattern>
      </generalDesc>
      <fixedLine>
        <possibleLengths national=""10"" localOnly=""7""/>
        <exampleNumber>7872345678</exampleNumber>
        <nationalNumberPattern>
          (?:
            787|
            939
          )[2-9]\d{6}
        </nationalNumberPattern>
      </fixedLine>
      <mobile>
        <possibleLengths national=""10"" localOnly=""7""/>
        <exampleNumber>7872345678</exampleNumber>
        <nationalNumberPattern>
          (?:
            787|
            939
          )[2-9]\d{6}
        </nationalNumberPattern>
      </mobile>
      <tollFree>
        <possibleLengths national=""10""/>
        <exampleNumber>8002345678</exampleNumber>
        <nationalNumberPattern>
          8(?:
            00|
            33|
            44|
            55|
            66|
            77|
            88
          )[2-9]\d{6}
        </nationalNumberPattern>
      </tollFree>
      <premiumRate>
        <possibleLengths national=""10""/>
        <exampleNumber>9002345678</exampleNumber>
        <nationalNumberPattern>900[2-9]\d{6}</nationalNumberPattern>
      </premiumRate>
      <!-- https://www.nationalnanpa.com/number_resource_info/5XX_codes.html -->
      <personalNumber>
        <possibleLengths national=""10""/>
        <exampleNumber>5002345678</exampleNumber>
        <nationalNumberPattern>
          52(?:
            3(?:
              [2-46-9][02-9]\d|
              5(?:
                [02-46-9]\d|
                5[0-46-9]
              )
            )|
            4(?:
              [2-478][02-9]\d|
";
   "              5(?:
                [034]\d|
                2[024-9]|
                5[0-46-9]
              )|
              6(?:
                0[1-9]|
                [2-9]\d
              )|
              9(?:
                [05-9]\d|
                2[0-5]|
                49
              )
            )
          )\d{4}|
          52[34][2-9]1[02-9]\d{4}|
          5(?:
            00|
            2[125-9]|
            3[23]|
            44|
            66|
            77|
            88
          )[2-9]\d{6}
        </nationalNumberPattern>
      </personalNumber>
    </territory>"];
  ["

    <!-- Palestine (PS) -->
    <!-- Palestinian phone numbers can be reached through the Israeli country code (972) in addition
         to the Palestinian country code (970) and so Palestinian landlines and mobile lines are a
         subset of the Israeli formats. -->
    <!-- http://en.wikipedia.org/wiki/%2B970 -->
    <!-- http://www.wtng.info/wtng-970-ps.html -->
    <!-- http://www.paltel.ps -->
    <territory id=""PS"" countryCode=""970"" internationalPrefix=""00"" nationalPrefix=""0"">
      <availableFormats>
        <numberFormat pattern=""(\d)(\d{3})(\d{4})"" nationalPrefixFormattingRule=""$NP$FG"">
          <leadingDigits>[2489]</leadingDigits>
          <format>$1 $2 $3</format>
        </numberFormat>
        <numberFormat pattern=""(\d{3})(\d{3})(\d{3})"" nationalPrefixFormattingRule=""$NP$FG"">
          <leadingDigits>5</leadingDigits>
          <format>$1 $2 $3</format>
        </numberFormat>
        <numberFormat pattern=""(\d{4})(\d{3})(\d{3})"">
          <leadingDigits>1</leadingDigits>
          <format>$1 $2 $3</format>
        </numberFormat>
      </availableFormats>
      <generalDesc>
        <nationalNumberPattern>
          [2489]2\d{6}|
          (?:
            1\d|
            5
          )\d{8}
        </nationalNumberPattern>
      </generalDesc>
      <fixedLine>
        <possibleLengths national=""8"" localOnly=""7""/>
        <exampleNumber>22234567</exampleNumber>
        <nationalNumberPattern>
          (?:
            22[2-47-9]|
            42[45]|
            82[014-68]|
            92[3569]
          )\d{5}
        </nationalNumberPattern>
      </fixedLine>
      <mobile>
        <possibleLengths national=""9""/>
        <exampleNumber>599123456</exampleNumber>
        <nationalNumberPattern>5[69]\d{7}</nationalNumberPattern>
      </mobile>
      <tollFree>
        <possibleLengths national=""10""/>
        <exampleNumber>1800123456</exampleNumber>
        <nationalNumberPattern>1800\d{6}</nationalNumberPattern>
      </tollFree>
      <sharedCost>
";
   "        <possibleLengths national=""10""/>
        <exampleNumber>1700123456</exampleNumber>
        <nationalNumberPattern>1700\d{6}</nationalNumberPattern>
      </sharedCost>
    </territory>"];
  ["

    <!-- Portugal (PT) -->
    <!-- http://www.anacom.pt/render.jsp?categoryId=279098 -->
    <territory id=""PT"" countryCode=""351"" internationalPrefix=""00"" mobileNumberPortableRegion=""true"">
      <availableFormats>
        <!-- Note: the wikipedia page suggests that mobile numbers may also be formatted with only
             two digits in the first group; however, this doesn't seem to be majority usage based on
             searches online. -->
        <numberFormat pattern=""(\d{2})(\d{3})(\d{4})"">
          <leadingDigits>2[12]</leadingDigits>
          <format>$1 $2 $3</format>
        </numberFormat>
        <numberFormat pattern=""(\d{3})(\d{3})(\d{3})"">
          <leadingDigits>
            16|
            [236-9]
          </leadingDigits>
          <format>$1 $2 $3</format>
        </numberFormat>
      </availableFormats>
      <generalDesc>
        <nationalNumberPattern>
          1693\d{5}|
          (?:
            [26-9]\d|
            30
          )\d{7}
        </nationalNumberPattern>
      </generalDesc>
      <fixedLine>
        <possibleLengths national=""9""/>
        <exampleNumber>212345678</exampleNumber>
        <nationalNumberPattern>
          2(?:
            [12]\d|
            3[1-689]|
            4[1-59]|
            [57][1-9]|
            6[1-35689]|
            8[1-69]|
            9[1256]
          )\d{6}
        </nationalNumberPattern>
      </fixedLine>
      <mobile>
        <possibleLengths national=""9""/>
        <exampleNumber>912345678</exampleNumber>
        <nationalNumberPattern>
          6(?:
            [06]92(?:
              30|
              9\d
            )|
            [35]92(?:
              [049]\d|
              3[034]
            )
          )\d{3}|
          (?:
            (?:
              16|
              6[0356]
            )93|
            9(?:
              [1-36]\d\d|
              480
            )
          )\d{5}
        </nationalNumberPattern>
      </mobile>
      <pager>
        <possibleLengths national=""9""/>
";
   "        <exampleNumber>622212345</exampleNumber>
        <nationalNumberPattern>
          6(?:
            222\d|
            89(?:
              00|
              88|
              99
            )
          )\d{4}
        </nationalNumberPattern>
      </pager>
      <tollFree>
        <possibleLengths national=""9""/>
        <exampleNumber>800123456</exampleNumber>
        <nationalNumberPattern>80[02]\d{6}</nationalNumberPattern>
      </tollFree>
      <!-- Fixed maximum cost numbers: 761=0.60€, 761=1€, 762=2€. -->
      <!-- Audio Text prefixes 601,607,608,646 and 648 added here -->
      <premiumRate>
        <possibleLengths national=""9""/>
        <exampleNumber>760123456</exampleNumber>
        <nationalNumberPattern>
          (?:
            6(?:
              0[178]|
              4[68]
            )\d|
            76(?:
              0[1-57]|
              1[2-47]|
              2[237]
            )
          )\d{5}
        </nationalNumberPattern>
      </premiumRate>
      <!-- 808 are priced as lo";
   "cal calls, 809 are national calls. -->
      <sharedCost>
        <possibleLengths national=""9""/>
        <exampleNumber>808123456</exampleNumber>
        <nationalNumberPattern>
          80(?:
            8\d|
            9[1579]
          )\d{5}
        </nationalNumberPattern>
      </sharedCost>
      <personalNumber>
        <possibleLengths national=""9""/>
        <exampleNumber>884123456</exampleNumber>
        <nationalNumberPattern>884[0-4689]\d{5}</nationalNumberPattern>
      </personalNumber>
      <voip>
        <possibleLengths national=""9""/>
        <exampleNumber>301234567</exampleNumber>
        <nationalNumberPattern>30\d{7}</nationalNumberPattern>
      </voip>
      <uan>
        <possibleLengths national=""9""/>
        <exampleNumber>707123456</exampleNumber>
        <nationalNumberPattern>
          70(?:
            38[01]|
            596|
            (?:
              7\d|
              8[17]
            )\d
          )\d{4}
        </nationalNumberPattern>
";
   "      </uan>
      <voicemail>
        <possibleLengths national=""9""/>
        <exampleNumber>600110000</exampleNumber>
        <nationalNumberPattern>
          600\d{6}|
          6[06]92(?:
            0\d|
            3[349]|
            49
          )\d{3}
        </nationalNumberPattern>
      </voicemail>
    </territory>"];
  ["

    <!-- Palau (PW) -->
    <!-- http://www.itu.int/oth/T02020000A2/en -->
    <territory id=""PW"" countryCode=""680"" internationalPrefix=""01[12]"">
      <availableFormats>
        <numberFormat pattern=""(\d{3})(\d{4})"">
          <leadingDigits>[2-9]</leadingDigits>
          <format>$1 $2</format>
        </numberFormat>
      </availableFormats>
      <generalDesc>
        <nationalNumberPattern>
          (?:
            [24-8]\d\d|
            345|
            900
          )\d{4}
        </nationalNumberPattern>
      </generalDesc>
      <!-- 900XXXX is mentioned as fixed-line and ""PNCC/Operator Services"". Might be carrier
           specific services of PNCC network. As we do not have carrier specific category in phone
           metadata, adding support to it here. -->
      <fixedLine>
        <possibleLengths national=""7""/>
        <exampleNumber>2771234</exampleNumber>
        <nationalNumberPattern>
          (?:
            2(?:
              55|
              77
            )|
            345|
            488|
            5(?:
              35|
              44|
              87
            )|
            6(?:
              22|
              54|
              79
            )|
            7(?:
              33|
              47
            )|
            8(?:
              24|
              55|
              76
            )|
            900
          )\d{4}
        </nationalNumberPattern>
      </fixedLine>
      <mobile>
        <possibleLengths national=""7""/>
        <exampleNumber>6201234</exampleNumber>
        <nationalNumberPattern>
          (?:
            (?:
              46|
              83
            )[0-5]|
            (?:
              6[2-4689]|
              78
            )0
          )\d{4}|
          (?:
            45|
            77|
            88
          )\d{5}
        </nationalNumberPattern>
      </mobile>
    </territory>"];
  ["

    <!-- Paraguay (PY) -->
    <!-- http://en.wikipedia.org/wiki/Telephone_numbers_in_Paraguay -->
    <!-- http://www.itu.int/oth/T02020000A5/en -->
    <!-- http://www.copaco.com.py/portal/index.php/component/content/article/8-empresa/74-codigos-de-area.html -->
    <!-- Number formats of landline numbers are based on online references. -->
    <territory id=""PY"" countryCode=""595"" internationalPrefix=""00"" nationalPrefix=""0""
               mobileNumberPortableRegion=""true"">
      <availableFormats>
        <!-- Block format for Shortcodes -->
        <numberFormat pattern=""(\d{6,7})"">
          <leadingDigits>
            [125]|
            4[01]
          </leadingDigits>
          <format>$1</format>
          <intlFormat>NA</intlFormat>
        </numberFormat>
        <numberFormat pattern=""(\d{3})(\d{3,6})"" nationalPrefixFormattingRule=""$NP$FG"">
          <leadingDigits>[2-9]0</leadingDigits>
          <format>$1 $2</format>
        </numberFormat>
        <!-- 7-digit fixed line -->
        <numberFormat pattern=""(\d{2})(\d{5})"" nationalPrefixFormattingRule=""($NP$FG)"">
          <leadingDigits>
            3[289]|
            4[246-8]|
            61|
            7[1-3]|
            8[1-36]
          </leadingDigits>
          <format>$1 $2</format>
        </numberFormat>
        <!-- 7 or 8-digit fixed line numbers (without a 9-digit variant) -->
        <numberFormat pattern=""(\d{3})(\d{4,5})"" nationalPrefixFormattingRule=""($NP$FG)"">
          <leadingDigits>
            2[279]|
            3[13-5]|
            4[359]|
            5|
            6(?:
              [34]|
              7[1-46-8]
            )|
            7[46-8]|
            85
          </leadingDigits>
          <format>$1 $2</format>
        </numberFormat>
        <!-- 8 or 9-digit fixed line numbers where a 7-digit variant exists -->
        <numberFormat pattern=""(\d{2})(\d{3})(\d{3,4})"" nationalPrefixFormattingRule=""($NP$FG)"">
          <leadingDigits>
            2[14-68]|
            3[26-9]|
";
   "            4[1246-8]|
            6(?:
              1|
              75
            )|
            7[1-35]|
            8[1-36]
          </leadingDigits>
          <format>$1 $2 $3</format>
        </numberFormat>
        <!-- Format seen in examples found online. -->
        <numberFormat pattern=""(\d{2})(\d{3})(\d{4})"">
          <leadingDigits>87</leadingDigits>
          <format>$1 $2 $3</format>
        </numberFormat>
        <numberFormat pattern=""(\d{3})(\d{6})"" nationalPrefixFormattingRule=""$NP$FG"">
          <leadingDigits>
            9(?:
              [5-79]|
              8[1-7]
            )
          </leadingDigits>
          <format>$1 $2</format>
        </numberFormat>
        <numberFormat pattern=""(\d{3})(\d{3})(\d{3})"" nationalPrefixFormattingRule=""$NP$FG"">
          <leadingDigits>[2-8]</leadingDigits>
          <format>$1 $2 $3</format>
        </numberFormat>
        <!-- 11 digit toll free numbers -->
        <numberFormat pattern=""(\d{4})(\d{3})(\d{4})"">
          <leadingDigits>9</leadingDigits>
          <format>$1 $2 $3</format>
        </numberFormat>
      </availableFormats>
      <generalDesc>
        <nationalNumberPattern>
          [36-8]\d{5,8}|
          4\d{6,8}|
          59\d{6}|
          9\d{5,10}|
          (?:
            2\d|
            5[0-8]
          )\d{6,7}
        </nationalNumberPattern>
      </generalDesc>
      <fixedLine>
        <possibleLengths national=""[7-9]"" localOnly=""5,6""/>
        <exampleNumber>212345678</exampleNumber>
        <nationalNumberPattern>
          (?:
            3[289]|
            4[246-8]|
            61|
            7[1-3]|
            8[1-36]
          )\d{5,7}|
          (?:
            2(?:
              [14-68]\d|
              2[4-68]|
              7[15]|
              9[1-5]
            )|
            3(?:
              18|
              3[167]|
              4[2357]|
              51|
              [67]\d
            )|
            4(?:
              1\d|
              3[12]|
";
   "              5[13]|
              9[1-47]
            )|
            5(?:
              [1-4]\d|
              5[02-4]
            )|
            6(?:
              3[1-3]|
              44|
              7[1-8]
            )|
            7(?:
              4[0-4]|
              5\d|
              6[1-578]|
              75|
              8[0-8]
            )|
            858
          )\d{5,6}
        </nationalNumberPattern>
      </fixedLine>
      <mobile>
        <possibleLengths national=""9""/>
        <exampleNumber>961456789</exampleNumber>
        <nationalNumberPattern>
          9(?:
            51|
            6[129]|
            7[1-6]|
            8[1-7]|
            9[1-5]
          )\d{6}
        </nationalNumberPattern>
      </mobile>
      <tollFree>
        <possibleLengths national=""[9-11]""/>
        <exampleNumber>98000123456</exampleNumber>
        <nationalNumberPattern>9800\d{5,7}</nationalNumberPattern>
      </tollFree>
      <voip>
        <possibleLengths national=""9""/>
        <exampleNumber>870012345</exampleNumber>
        <nationalNumberPattern>8700[0-4]\d{4}</nationalNumberPattern>
      </voip>
      <uan>
        <possibleLengths national=""[6-9]""/>
        <exampleNumber>201234567</exampleNumber>
        <nationalNumberPattern>
          [245]0\d{6,7}|
          [36-9]0\d{4,7}
        </nationalNumberPattern>
      </uan>
    </territory>"];
  ["

    <!-- Qatar (QA) -->
    <!-- No premiumRate information can be found. -->
    <!-- http://www.itu.int/oth/T02020000AB/en -->
    <!-- http://wtng.info/wtng-qq.html -->
    <territory id=""QA"" countryCode=""974"" internationalPrefix=""00"" mobileNumberPortableRegion=""true"">
      <availableFormats>
        <numberFormat pattern=""(\d{3})(\d{4})"">
          <leadingDigits>
            2[136]|
            8
          </leadingDigits>
          <format>$1 $2</format>
        </numberFormat>
        <numberFormat pattern=""(\d{4})(\d{4})"">
          <leadingDigits>[3-7]</leadingDigits>
          <format>$1 $2</format>
        </numberFormat>
      </availableFormats>
      <generalDesc>
        <nationalNumberPattern>
          800\d{4}|
          (?:
            2|
            800
          )\d{6}|
          (?:
            0080|
            [3-7]
          )\d{7}
        </nationalNumberPattern>
      </generalDesc>
      <!-- The prefix 40 has now been allocated, based on numbers seen online.
           Prefix 414[1-4] is added based on user report and online numbers. -->
      <fixedLine>
        <possibleLengths national=""8""/>
        <exampleNumber>44123456</exampleNumber>
        <nationalNumberPattern>
          4(?:
            (?:
              [014]\d\d|
              999
            )\d|
            2022
          )\d{3}
        </nationalNumberPattern>
      </fixedLine>
      <mobile>
        <possibleLengths national=""8""/>
        <exampleNumber>33123456</exampleNumber>
        <nationalNumberPattern>[35-7]\d{7}</nationalNumberPattern>
      </mobile>
      <pager>
        <possibleLengths national=""7""/>
        <exampleNumber>2123456</exampleNumber>
        <nationalNumberPattern>2[136]\d{5}</nationalNumberPattern>
      </pager>
      <!-- Prefix 800 with 9 digit length is added based on user report. -->
      <tollFree>
        <possibleLengths national=""7,9,11""/>
        <exampleNumber>8001234</exampleNumber>
        <nationalNumberPattern>
          800\d{4}|
";
   "          (?:
            0080[01]|
            800
          )\d{6}
        </nationalNumberPattern>
      </tollFree>
    </territory>"];
  ["

    <!-- Réunion (RE) -->
    <!-- Main region for 'YT' -->
    <!-- http://www.itu.int/oth/T020200004B/en -->
    <!-- http://www.arcep.fr/index.php?id=2137&bloc=0596&CMD=RESULTS_NUMEROTATION -->
    <territory id=""RE"" mainCountryForCode=""true"" countryCode=""262"" internationalPrefix=""00""
               nationalPrefix=""0"">
      <availableFormats>
        <numberFormat pattern=""(\d{3})(\d{2})(\d{2})(\d{2})"" nationalPrefixFormattingRule=""$NP$FG"">
          <leadingDigits>[26-9]</leadingDigits>
          <format>$1 $2 $3 $4</format>
        </numberFormat>
      </availableFormats>
      <generalDesc>
        <nationalNumberPattern>
          709\d{6}|
          (?:
            26|
            [689]\d
          )\d{7}
        </nationalNumberPattern>
      </generalDesc>
      <!-- 0876 numbers are mentioned in the plan, but none in use can be found. -->
      <fixedLine>
        <possibleLengths national=""9""/>
        <exampleNumber>262161234</exampleNumber>
        <nationalNumberPattern>
          2631[0-6]\d{4}|
          26(?:
            2\d|
            30|
            88
          )\d{5}
        </nationalNumberPattern>
      </fixedLine>
      <mobile>
        <possibleLengths national=""9""/>
        <exampleNumber>692123456</exampleNumber>
        <nationalNumberPattern>
          (?:
            69(?:
              2\d\d|
              3(?:
                [06][0-6]|
                1[0-3]|
                2[0-2]|
                3[0-39]|
                4\d|
                5[0-5]|
                7[0-37]|
                8[0-8]|
                9[0-479]
              )
            )|
            7092[0-3]
          )\d{4}
        </nationalNumberPattern>
      </mobile>
      <!-- 08* Numbers in Réunion are the same as those valid in France. -->
      <tollFree>
        <possibleLengths national=""9""/>
        <exampleNumber>801234567</exampleNumber>
        <nationalNumberPattern>80\d{7}</nationalNumberPattern>
      </tollFree>
      <premiumRate>
        <possibleLengths national=""9""/>
";
   "        <exampleNumber>891123456</exampleNumber>
        <nationalNumberPattern>89[1-37-9]\d{6}</nationalNumberPattern>
      </premiumRate>
      <sharedCost>
        <possibleLengths national=""9""/>
        <exampleNumber>810123456</exampleNumber>
        <nationalNumberPattern>
          8(?:
            1[019]|
            2[0156]|
            84|
            90
          )\d{6}
        </nationalNumberPattern>
      </sharedCost>
      <voip>
        <possibleLengths national=""9""/>
        <exampleNumber>939901234</exampleNumber>
        <nationalNumberPattern>
          9(?:
            399[0-3]|
            479[0-6]|
            76(?:
              2[278]|
              3[0-37]
            )
          )\d{4}
        </nationalNumberPattern>
      </voip>
    </territory>"];
  ["

    <!-- Romania (RO) -->
    <!-- Extension prefix found online, confirmed by a Romanian. -->
    <!-- http://www.itu.int/oth/T02020000AC/en -->
    <!-- http://en.wikipedia.org/wiki/Telephone_numbers_in_Romania -->
    <!-- http://www.ancom.org.ro/en/presentation-of-romanian-national-numbering-plan-according-to-itu-t-recommendation-e129-_5523 -->
    <territory id=""RO"" countryCode=""40"" internationalPrefix=""00"" nationalPrefix=""0""
               preferredExtnPrefix="" int "" mobileNumberPortableRegion=""true"">
      <availableFormats>
        <numberFormat pattern=""(\d{3})(\d{3})"" nationalPrefixFormattingRule=""$NP$FG"">
          <leadingDigits>2[3-6]</leadingDigits>
          <leadingDigits>2[3-6]\d9</leadingDigits>
          <format>$1 $2</format>
        </numberFormat>
        <numberFormat pattern=""(\d{2})(\d{4})"" nationalPrefixFormattingRule=""$NP$FG"">
          <leadingDigits>
            219|
            31
          </leadingDigits>
          <format>$1 $2</format>
        </numberFormat>
        <numberFormat pattern=""(\d{2})(\d{3})(\d{4})"" nationalPrefixFormattingRule=""$NP$FG"">
          <leadingDigits>[23]1</leadingDigits>
          <format>$1 $2 $3</format>
        </numberFormat>
        <!-- We format mobile numbers like this, even though ITU and wikipedia hint at
             \d{2}\d{3}\d{4} grouping, since the yellow pages (http://en.paginiaurii.ro/) and the
             majority of numbers found online follow this convention. -->
        <numberFormat pattern=""(\d{3})(\d{3})(\d{3})"" nationalPrefixFormattingRule=""$NP$FG"">
          <leadingDigits>[236-9]</leadingDigits>
          <format>$1 $2 $3</format>
        </numberFormat>
      </availableFormats>
      <generalDesc>
        <nationalNumberPattern>
          (?:
            [236-8]\d|
            90
          )\d{7}|
          [23]\d{5}
        </nationalNumberPattern>
      </generalDesc>
      <!-- We exclude three-digit short numbers for Bucharest (219\d{2}) and four-digit short
           numbers outside Bucharest (2[36]\d9\d{3}) even though ITU suggests these exist. We do
";
   "           this based on numbers found online and the wikipedia article which indicate that these
           are four digits long in Bucharest only, and three digits elsewhere. -->
      <fixedLine>
        <possibleLengths national=""6,9""/>
        <exampleNumber>211234567</exampleNumber>
        <nationalNumberPattern>
          [23][13-6]\d{7}|
          (?:
            2(?:
              19\d|
              [3-6]\d9
            )|
            31\d\d
          )\d\d
        </nationalNumberPattern>
      </fixedLine>
      <!-- http://www.enigma-system.net/business/customized-phone-number.html confirms that the
           numbers are restricted to those starting with 07000. Mobile prefix 0799 added based on
           open-source report and confirmation by existence of such numbers online.
           As per Ancom official doc, mobile numbers can also begin with 6. However, we didn't
           find any numbers online with this prefix, and the wikipedia source doesn't mention it,
           so we do not support it for now. -->
      <mobile>
        <possibleLengths national=""9""/>
        <exampleNumber>712034567</exampleNumber>
        <nationalNumberPattern>
          (?:
            630|
            702
          )0\d{5}|
          (?:
            6(?:
              00|
              2\d
            )|
            7(?:
              0[013-9]|
              1[0-3]|
              [2-7]\d|
              8[03-8]|
              9[0-39]
            )
          )\d{6}
        </nationalNumberPattern>
      </mobile>
      <tollFree>
        <possibleLengths national=""9""/>
        <exampleNumber>800123456</exampleNumber>
        <nationalNumberPattern>800\d{6}</nationalNumberPattern>
      </tollFree>
      <premiumRate>
        <possibleLengths national=""9""/>
        <exampleNumber>900123456</exampleNumber>
        <nationalNumberPattern>90[0136]\d{6}</nationalNumberPattern>
      </premiumRate>
      <!-- 803\d{6} shared cost number pattern is not included as we couldn't find any working
";
   "           numbers online. -->
      <sharedCost>
        <possibleLengths national=""9""/>
        <exampleNumber>801123456</exampleNumber>
        <nationalNumberPattern>801\d{6}</nationalNumberPattern>
      </sharedCost>
      <!-- http://www.ancom.org.ro/pnn_1300 refers to numbers beginning with 37, 38 or 39 as
           location-independent national numbers. Only numbers beginning with 37 have been seen so
           these are the only ones supported for now. -->
      <uan>
        <possibleLengths national=""9""/>
        <exampleNumber>372123456</exampleNumber>
        <nationalNumberPattern>
          (?:
            37\d|
            80[578]
          )\d{6}
        </nationalNumberPattern>
      </uan>
    </territory>"];
  ["

    <!-- Serbia (RS) -->
    <!-- http://www.itu.int/oth/T02020000B9/en -->
    <!-- http://registar.ratel.rs/en/reg202 -->
    <territory id=""RS"" countryCode=""381"" internationalPrefix=""00"" nationalPrefix=""0""
               mobileNumberPortableRegion=""true"">
      <availableFormats>
        <!-- 3-digit prefix (fixed and mobile). -->
        <numberFormat pattern=""(\d{3})(\d{3,9})"" nationalPrefixFormattingRule=""$NP$FG"">
          <leadingDigits>
            (?:
              2[389]|
              39
            )0|
            [7-9]
          </leadingDigits>
          <format>$1 $2</format>
        </numberFormat>
        <!-- 2-digit prefix (fixed line and mobile). -->
        <numberFormat pattern=""(\d{2})(\d{5,10})"" nationalPrefixFormattingRule=""$NP$FG"">
          <leadingDigits>[1-36]</leadingDigits>
          <format>$1 $2</format>
        </numberFormat>
      </availableFormats>
      <generalDesc>
        <nationalNumberPattern>
          38[02-9]\d{6,9}|
          6\d{7,9}|
          90\d{4,8}|
          38\d{5,6}|
          (?:
            7\d\d|
            800
          )\d{3,9}|
          (?:
            [12]\d|
            3[0-79]
          )\d{5,10}
        </nationalNumberPattern>
      </generalDesc>
      <!-- Most subscriber numbers may not start with 0 or 1. Exceptionally, the prefix 11 1[5-7]
           has been issused, so we allow 11 1X here. -->
      <fixedLine>
        <possibleLengths national=""[7-12]"" localOnly=""[4-6]""/>
        <exampleNumber>10234567</exampleNumber>
        <nationalNumberPattern>
          (?:
            11[1-9]\d|
            (?:
              2[389]|
              39
            )(?:
              0[2-9]|
              [2-9]\d
            )
          )\d{3,8}|
          (?:
            1[02-9]|
            2[0-24-7]|
            3[0-8]
          )[2-9]\d{4,9}
        </nationalNumberPattern>
      </fixedLine>
      <mobile>
        <possibleLengths national=""[8-10]""/>
        <exampleNumber>601234567</exampleNumber>
";
   "        <nationalNumberPattern>
          6(?:
            [0-689]|
            7\d
          )\d{6,7}
        </nationalNumberPattern>
      </mobile>
      <tollFree>
        <possibleLengths national=""[6-12]""/>
        <exampleNumber>80012345</exampleNumber>
        <nationalNumberPattern>800\d{3,9}</nationalNumberPattern>
      </tollFree>
      <premiumRate>
        <possibleLengths national=""[6-10]""/>
        <exampleNumber>90012345</exampleNumber>
        <nationalNumberPattern>
          (?:
            78\d|
            90[0169]
          )\d{3,7}
        </nationalNumberPattern>
      </premiumRate>
      <uan>
        <possibleLengths national=""[6-12]""/>
        <exampleNumber>700123456</exampleNumber>
        <nationalNumberPattern>7[06]\d{4,10}</nationalNumberPattern>
      </uan>
    </territory>"];
  ["

    <!-- Russia (RU) -->
    <!-- Main region for 'KZ' -->
    <!-- http://www.itu.int/oth/T02020000AD/en -->
    <!-- http://en.wikipedia.org/wiki/%2B7 -->
    <!-- Formatting fr";
   "om wikipedia, confirmed on government websites such as
         http://www.minjust.ru/ru/structure/contact/. Contains formatting instructions for
         Kazakhstan as well. -->
    <territory id=""RU"" mainCountryForCode=""true"" countryCode=""7"" leadingDigits=""[3489]""
               preferredInternationalPrefix=""8~10"" internationalPrefix=""810"" nationalPrefix=""8""
               mobileNumberPortableRegion=""true"">
      <availableFormats>
        <numberFormat pattern=""(\d{3})(\d{2})(\d{2})"">
          <leadingDigits>[0-79]</leadingDigits>
          <format>$1-$2-$3</format>
          <intlFormat>NA</intlFormat>
        </numberFormat>
        <!-- Kazakhstan formatting only. -->
        <numberFormat pattern=""(\d{4})(\d{2})(\d{2})(\d{2})""
                      nationalPrefixFormattingRule=""$NP ($FG)""
                      nationalPrefixOptionalWhenFormatting=""true"">
          <leadingDigits>
            7(?:
              1[0-8]|
              2[1-9]
            )
          </leadingDigits>
          <leadingDigits>
            7(?:
              1(?:
                [0-356]2|
                4[29]|
                7|
                8[27]
              )|
              2(?:
                1[23]|
                [2-9]2
              )
            )
          </leadingDigits>
          <leadingDigits>
            7(?:
              1(?:
                [0-356]2|
                4[29]|
                7|
                8[27]
              )|
              2(?:
                13[03-69]|
                62[013-9]
              )
            )|
            72[1-57-9]2
          </leadingDigits>
          <format>$1 $2 $3 $4</format>
        </numberFormat>
        <!-- Kazakhstan formatting only. -->
        <numberFormat pattern=""(\d{5})(\d)(\d{2})(\d{2})"" nationalPrefixFormattingRule=""$NP ($FG)""
";
   "                      nationalPrefixOptionalWhenFormatting=""true"">
          <leadingDigits>
            7(?:
              1[0-68]|
              2[1-9]
            )
          </leadingDigits>
          <leadingDigits>
            7(?:
              1(?:
                [06][3-6]|
                [18]|
                2[35]|
                [3-5][3-5]
              )|
              2(?:
                [13][3-5]|
                [24-689]|
                7[457]
              )
            )
          </leadingDigits>
          <leadingDigits>
            7(?:
              1(?:
                0(?:
                  [356]|
                  4[023]
                )|
                [18]|
                2(?:
                  3[013-9]|
                  5
                )|
                3[45]|
                43[013-79]|
                5(?:
                  3[1-8]|
                  4[1-7]|
                  5
                )|
                6(?:
                  3[0-35-9]|
                  [4-6]
                )
              )|
              2(?:
                1(?:
                  3[178]|
                  [45]
                )|
                [24-689]|
                3[35]|
                7[457]
              )
            )|
            7(?:
              14|
              23
            )4[0-8]|
            71(?:
              33|
              45
            )[1-79]
          </leadingDigits>
          <format>$1 $2 $3 $4</format>
        </numberFormat>
        <!-- Kazakhstan formatting only. -->
        <numberFormat pattern=""(\d{3})(\d{3})(\d{4})"" nationalPrefixFormattingRule=""$NP ($FG)""
                      nationalPrefixOptionalWhenFormatting=""true"">
          <leadingDigits>7</leadingDigits>
          <format>$1 $2 $3</format>
        </numberFormat>
        <!-- Russian number formatting mostly, some minor overlap with shared ranges. -->
        <numberFormat pattern=""(\d{3})(\d{3})(\d{2})(\d{2})""
                      nationalPrefixFormattingRule=""$NP ($FG)""
";
   "                      nationalPrefixOptionalWhenFormatting=""true"">
          <leadingDigits>
            [349]|
            8(?:
              [02-7]|
              1[1-8]
            )
          </leadingDigits>
          <format>$1 $2-$3-$4</format>
        </numberFormat>
        <numberFormat pattern=""(\d{4})(\d{4})(\d{3})(\d{3})""
                      nationalPrefixFormattingRule=""$NP ($FG)"">
          <leadingDigits>8</leadingDigits>
          <format>$1 $2 $3 $4</format>
        </numberFormat>
      </availableFormats>
      <generalDesc>
        <nationalNumberPattern>
          8\d{13}|
          [347-9]\d{9}
        </nationalNumberPattern>
      </generalDesc>
      <!-- The Ivanovo area code 493 was omitted on the official document, but this is still used
           in the yellow pages, and on their own website and is listed on wikipedia. This applies
           also to 395 (Irkutsk). Also including the 840 prefix for Abkhazia. -->
      <fixedLine>
        <possibleLengths national=""10"" localOnly=""7""/>
        <exampleNumber>3011234567</exampleNumber>
        <nationalNumberPattern>
          (?:
            3(?:
              0[12]|
              36|
              4[1-35-79]|
              5[1-3]|
              65|
              8[1-58]|
              9[0145]
            )|
            4(?:
              01|
              1[1356]|
              2[13467]|
              7[1-5]|
              8[1-7]|
              9[1-689]
            )|
            8(?:
              1[1-8]|
              2[01]|
              3[13-6]|
              4[0-8]|
              5[15-7]|
              6[0-35-79]|
              7[1-37-9]
            )
          )\d{7}
        </nationalNumberPattern>
      </fixedLine>
      <mobile>
        <possibleLengths national=""10""/>
        <exampleNumber>9123456789</exampleNumber>
        <nationalNumberPattern>9\d{9}</nationalNumberPattern>
      </mobile>
      <!-- The metadata states that 804 numbers are UAN numbers, but
           teleum.ru/numbers/toll_free_804 states that they are now being offered as toll-free
";
   "           numbers. -->
      <tollFree>
        <possibleLengths national=""10,14""/>
        <exampleNumber>8001234567</exampleNumber>
        <nationalNumberPattern>
          8(?:
            0[04]|
            108\d{3}
          )\d{7}
        </nationalNumberPattern>
      </tollFree>
      <!-- Covers tele-voting numbers as well. -->
      <premiumRate>
        <possibleLengths national=""10""/>
        <exampleNumber>8091234567</exampleNumber>
        <nationalNumberPattern>80[39]\d{7}</nationalNumberPattern>
      </premiumRate>
      <!-- These are referred to as UPT numbers in the plan. -->
      <personalNumber>
        <possibleLengths national=""10""/>
        <exampleNumber>8081234567</exampleNumber>
        <nationalNumberPattern>808\d{7}</nationalNumberPattern>
      </personalNumber>
    </territory>"];
  ["

    <!-- Rwanda (RW) -->
    <!-- According to ITU, there is no national prefix. However, this is still used. As of June 3rd
         2011, this was confirmed by a Rwandan lo";
   "cal. It is also shown in this format on pages such
         as http://www.tigo.co.rw ""Choose Your Number"" service. -->
    <!-- http://www.rura.gov.rw/docs/RWANDA_NATIONAL_NUMBERING_PLAN.pdf -->
    <!-- http://en.wikipedia.org/wiki/+250 -->
    <territory id=""RW"" countryCode=""250"" internationalPrefix=""00"" nationalPrefix=""0"">
      <availableFormats>
        <numberFormat pattern=""(\d{2})(\d{2})(\d{2})(\d{2})"">
          <leadingDigits>0</leadingDigits>
          <format>$1 $2 $3 $4</format>
        </numberFormat>
        <numberFormat pattern=""(\d{3})(\d{3})(\d{3})"">
          <leadingDigits>2</leadingDigits>
          <format>$1 $2 $3</format>
        </numberFormat>
        <numberFormat pattern=""(\d{3})(\d{3})(\d{3})"" nationalPrefixFormattingRule=""$NP$FG"">
          <leadingDigits>[7-9]</leadingDigits>
          <format>$1 $2 $3</format>
        </numberFormat>
      </availableFormats>
      <generalDesc>
        <nationalNumberPattern>
          (?:
            06|
            [27]\d\d|
            [89]00
          )\d{6}
        </nationalNumberPattern>
      </generalDesc>
      <!-- We support satellite numbers here, since they are in the plan, although no recent
           online examples can be found. We also support fixed-line ranges that have been reserved
           and paid for, even where no online numbers can be found. -->
      <fixedLine>
        <possibleLengths national=""8,9""/>
        <exampleNumber>250123456</exampleNumber>
        <nationalNumberPattern>
          (?:
            06|
            2[23568]\d
          )\d{6}
        </nationalNumberPattern>
      </fixedLine>
      <!-- Removing 75 - that was Rwandatel but they had their license revoked. -->
      <mobile>
        <possibleLengths national=""9""/>
        <exampleNumber>720123456</exampleNumber>
        <nationalNumberPattern>7[237-9]\d{7}</nationalNumberPattern>
";
   "      </mobile>
      <tollFree>
        <possibleLengths national=""9""/>
        <exampleNumber>800123456</exampleNumber>
        <nationalNumberPattern>800\d{6}</nationalNumberPattern>
      </tollFree>
      <premiumRate>
        <possibleLengths national=""9""/>
        <exampleNumber>900123456</exampleNumber>
        <nationalNumberPattern>900\d{6}</nationalNumberPattern>
      </premiumRate>
    </territory>"];
  ["

    <!-- Saudi Arabia (SA) -->
    <!-- http://en.wikipedia.org/wiki/Telephone_numbers_in_Saudi_Arabia -->
    <!-- http://www.itu.int/oth/T02020000B7/en -->
    <territory id=""SA"" countryCode=""966"" internationalPrefix=""00"" nationalPrefix=""0""
               mobileNumberPortableRegion=""true"">
      <availableFormats>
        <!-- It seems that the trunk prefix is not used for these numbers, based on wikipedia and on
             the fact that no numbers of this form found online have a trunk prefix added. -->
        <numberFormat pattern=""(\d{4})(\d{5})"">
          <leadingDigits>9</leadingDigits>
          <format>$1 $2</format>
        </numberFormat>
        <numberFormat pattern=""(\d{2})(\d{3})(\d{4})"" nationalPrefixFormattingRule=""$NP$FG"">
          <leadingDigits>1</leadingDigits>
          <format>$1 $2 $3</format>
        </numberFormat>
        <numberFormat pattern=""(\d{2})(\d{3})(\d{4})"" nationalPrefixFormattingRule=""$NP$FG"">
          <leadingDigits>5</leadingDigits>
          <format>$1 $2 $3</format>
        </numberFormat>
        <numberFormat pattern=""(\d{3})(\d{3})(\d{4})"">
          <leadingDigits>8</leadingDigits>
          <format>$1 $2 $3</format>
        </numberFormat>
      </availableFormats>
      <generalDesc>
        <nationalNumberPattern>
          (?:
            [15]\d|
            800|
            92
          )\d{7}
        </nationalNumberPattern>
      </generalDesc>
      <fixedLine>
        <possibleLengths national=""9"" localOnly=""7""/>
        <exampleNumber>112345678</exampleNumber>
        <nationalNumberPattern>
          1(?:
            1\d|
            2[24-8]|
            3[35-8]|
            4[3-68]|
            6[2-5]|
            7[235-7]
          )\d{6}
        </nationalNumberPattern>
      </fixedLine>
      <mobile>
        <possibleLengths national=""9""/>
        <exampleNumber>512345678</exampleNumber>
        <nationalNumberPattern>
          579[0-8]\d{5}|
          5(?:
            [013-689]\d|
            7[0-8]
";
   "          )\d{6}
        </nationalNumberPattern>
      </mobile>
      <tollFree>
        <possibleLengths national=""10""/>
        <exampleNumber>8001234567</exampleNumber>
        <nationalNumberPattern>800\d{7}</nationalNumberPattern>
      </tollFree>
      <!-- Contains shared revenue range 925, as calling these numbers involve charges fr";
   "om carrier
           and the organization that you are calling. -->
      <premiumRate>
        <possibleLengths national=""9""/>
        <exampleNumber>925012345</exampleNumber>
        <nationalNumberPattern>925\d{6}</nationalNumberPattern>
      </premiumRate>
      <sharedCost>
        <possibleLengths national=""9""/>
        <exampleNumber>920012345</exampleNumber>
        <nationalNumberPattern>920\d{6}</nationalNumberPattern>
      </sharedCost>
    </territory>"];
  ["

    <!-- Solomon Islands (SB) -->
    <!-- http://www.itu.int/oth/T02020000BF/en -->
    <!-- A single group is used to format 5-digit numbers. This formatting pattern follows
         the guidelines in the ITU document. -->
    <territory id=""SB"" countryCode=""677"" internationalPrefix=""0[01]"">
      <availableFormats>
        <numberFormat pattern=""(\d{2})(\d{5})"">
          <leadingDigits>
            6[89]|
            7|
            8[4-9]|
            9(?:
              [1-8]|
              9[0-8]
            )
          </leadingDigits>
          <format>$1 $2</format>
        </numberFormat>
      </availableFormats>
      <generalDesc>
        <nationalNumberPattern>
          [6-9]\d{6}|
          [1-6]\d{4}
        </nationalNumberPattern>
      </generalDesc>
      <!-- Although not mentioned in the 2011 update, it seems likely that the range 67300-67699
           is still used for Sasamunga, Shortland, Poitete and Ringgi as per the 2010 plan. -->
      <fixedLine>
        <possibleLengths national=""5""/>
        <exampleNumber>40123</exampleNumber>
        <nationalNumberPattern>
          (?:
            1[4-79]|
            [23]\d|
            4[0-2]|
            5[03]|
            6[0-37]
          )\d{3}
        </nationalNumberPattern>
      </fixedLine>
      <mobile>
        <possibleLengths national=""5,7""/>
        <exampleNumber>7421234</exampleNumber>
        <nationalNumberPattern>
          48\d{3}|
          (?:
            (?:
              6[89]|
              7[1-9]|
              8[4-9]
            )\d|
            9(?:
              1[2-9]|
              2[013-9]|
              3[0-2]|
              [46]\d|
              5[0-46-9]|
              7[0-689]|
              8[0-79]|
              9[0-8]
            )
          )\d{4}
        </nationalNumberPattern>
      </mobile>
      <tollFree>
        <possibleLengths national=""5""/>
        <exampleNumber>18123</exampleNumber>
        <nationalNumberPattern>1[38]\d{3}</nationalNumberPattern>
";
   "      </tollFree>
      <voip>
        <possibleLengths national=""5""/>
        <exampleNumber>51123</exampleNumber>
        <nationalNumberPattern>5[12]\d{3}</nationalNumberPattern>
      </voip>
    </territory>"];
  ["

    <!-- Seychelles (SC) -->
    <!-- http://www.itu.int/oth/T02020000BA/en -->
    <!-- http://en.wikipedia.org/wiki/Telephone_numbers_in_Seychelles -->
    <territory id=""SC"" countryCode=""248"" preferredInternationalPrefix=""00""
               internationalPrefix=""010|0[0-2]"">
      <availableFormats>
        <numberFormat pattern=""(\d)(\d{3})(\d{3})"">
          <leadingDigits>
            [246]|
            9[57]
          </leadingDigits>
          <format>$1 $2 $3</format>
        </numberFormat>
      </availableFormats>
      <generalDesc>
        <nationalNumberPattern>
          (?:
            [2489]\d|
            64
          )\d{5}
        </nationalNumberPattern>
      </generalDesc>
      <!-- We are putting Fixed Services numbers here for now, as we cannot find any evidence that
           they are more expensive to call than other Fixed Line services. ISDN and DID services
           are here too, since they seem to be also fixed-line phone numbers. -->
      <fixedLine>
        <possibleLengths national=""7""/>
        <exampleNumber>4217123</exampleNumber>
        <nationalNumberPattern>4[2-46]\d{5}</nationalNumberPattern>
      </fixedLine>
      <!-- Includes Fixed Cellular. -->
      <mobile>
        <possibleLengths national=""7""/>
        <exampleNumber>2510123</exampleNumber>
        <nationalNumberPattern>2[125-8]\d{5}</nationalNumberPattern>
      </mobile>
      <tollFree>
        <possibleLengths national=""7""/>
        <exampleNumber>8000000</exampleNumber>
        <nationalNumberPattern>800[08]\d{3}</nationalNumberPattern>
      </tollFree>
      <premiumRate>
        <possibleLengths national=""7""/>
        <exampleNumber>8512345</exampleNumber>
        <nationalNumberPattern>85\d{5}</nationalNumberPattern>
      </premiumRate>
      <!-- Includes prefix 971,95[0-9] which is assigned to Audiotext ,International Audiotext
           Services. -->
      <voip>
        <possibleLengths national=""7""/>
        <exampleNumber>6412345</exampleNumber>
";
   "        <nationalNumberPattern>
          971\d{4}|
          (?:
            64|
            95
          )\d{5}
        </nationalNumberPattern>
      </voip>
    </territory>"];
  ["

    <!-- Sudan (SD) -->
    <!-- http://www.itu.int/oth/T02020000C4/en -->
    <!-- https://en.wikipedia.org/wiki/Telephone_numbers_in_Sudan -->
    <territory id=""SD"" countryCode=""249"" internationalPrefix=""00"" nationalPrefix=""0"">
      <availableFormats>
        <numberFormat pattern=""(\d{2})(\d{3})(\d{4})"" nationalPrefixFormattingRule=""$NP$FG"">
          <leadingDigits>[19]</leadingDigits>
          <format>$1 $2 $3</format>
        </numberFormat>
      </availableFormats>
      <generalDesc>
        <nationalNumberPattern>[19]\d{8}</nationalNumberPattern>
      </generalDesc>
      <!-- Retaining previous prefix as 18 since it seems still to be used. ITU doc says 12 is a
           fixed-line range but we are supporting 1[0-2] under mobile as Sudatel mentions that
           these mobile ranges are assigned to them. -->
      <!-- The third digit here is an area code as per Wikipedia. Added 154 range based on valid
           numbers found online. -->
      <fixedLine>
        <possibleLengths national=""9""/>
        <exampleNumber>153123456</exampleNumber>
        <nationalNumberPattern>
          1(?:
            5\d|
            8[35-7]
          )\d{6}
        </nationalNumberPattern>
      </fixedLine>
      <mobile>
        <possibleLengths national=""9""/>
        <exampleNumber>911231234</exampleNumber>
        <nationalNumberPattern>
          (?:
            1[0-2]|
            9[0-3569]
          )\d{7}
        </nationalNumberPattern>
      </mobile>
    </territory>"];
  ["

    <!-- Sweden (SE) -->
    <!-- https://pts.se/en/internet-and-telephony/numbering-and-addressing/ -->
    <!-- https://nummer.pts.se/NbrPlanSearch/GetNumbers -->
    <!-- Formatting patterns are fr";
   "om the numbering plan and fr";
   "om the Swedish yellow pages
         http://gulasidorna.eniro.se -->
    <territory id=""SE"" countryCode=""46"" internationalPrefix=""00"" nationalPrefix=""0""
               mobileNumberPortableRegion=""true"">
      <availableFormats>
        <!-- Short toll-free numbers. -->
        <numberFormat pattern=""(\d{2})(\d{2,3})(\d{2})"" nationalPrefixFormattingRule=""$NP$FG"">
          <leadingDigits>20</leadingDigits>
          <format>$1-$2 $3</format>
          <intlFormat>$1 $2 $3</intlFormat>
        </numberFormat>
        <!-- 7 digit premium rate numbers. -->
        <numberFormat pattern=""(\d{3})(\d{4})"" nationalPrefixFormattingRule=""$NP$FG"">
          <leadingDigits>
            9(?:
              00|
              39|
              44|
              9
            )
          </leadingDigits>
          <format>$1-$2</format>
          <intlFormat>$1 $2</intlFormat>
        </numberFormat>
        <!-- Short fixed line numbers (2 digit area code) -->
        <numberFormat pattern=""(\d{2})(\d{3})(\d{2})"" nationalPrefixFormattingRule=""$NP$FG"">
          <leadingDigits>
            [12][136]|
            3[356]|
            4[0246]|
            6[03]|
            90[1-9]
          </leadingDigits>
          <format>$1-$2 $3</format>
          <intlFormat>$1 $2 $3</intlFormat>
        </numberFormat>
        <!-- Fixed line numbers in Stockholm (1 digit area code) -->
        <numberFormat pattern=""(\d)(\d{2,3})(\d{2})(\d{2})"" nationalPrefixFormattingRule=""$NP$FG"">
          <leadingDigits>8</leadingDigits>
          <format>$1-$2 $3 $4</format>
          <intlFormat>$1 $2 $3 $4</intlFormat>
        </numberFormat>
        <!-- Short fixed line numbers (3 digit area code) -->
        <numberFormat pattern=""(\d{3})(\d{2,3})(\d{2})"" nationalPrefixFormattingRule=""$NP$FG"">
";
   "          <leadingDigits>
            1[2457]|
            2(?:
              [247-9]|
              5[0138]
            )|
            3[0247-9]|
            4[1357-9]|
            5[0-35-9]|
            6(?:
              [125689]|
              4[02-57]|
              7[0-2]
            )|
            9(?:
              [125-8]|
              3[02-5]|
              4[0-3]
            )
          </leadingDigits>
          <format>$1-$2 $3</format>
          <intlFormat>$1 $2 $3</intlFormat>
        </numberFormat>
        <!-- 8-9 digit premium rate numbers. -->
        <numberFormat pattern=""(\d{3})(\d{2,3})(\d{3})"" nationalPrefixFormattingRule=""$NP$FG"">
          <leadingDigits>
            9(?:
              00|
              39|
              44
            )
          </leadingDigits>
          <format>$1-$2 $3</format>
          <intlFormat>$1 $2 $3</intlFormat>
        </numberFormat>
        <!-- Fixed line numbers (2 digit area code) and ""long"" toll free numbers. -->
        <numberFormat pattern=""(\d{2})(\d{2,3})(\d{2})(\d{2})"" nationalPrefixFormattingRule=""$NP$FG"">
          <leadingDigits>
            1[13689]|
            2[0136]|
            3[1356]|
            4[0246]|
            54|
            6[03]|
            90[1-9]
          </leadingDigits>
          <format>$1-$2 $3 $4</format>
          <intlFormat>$1 $2 $3 $4</intlFormat>
        </numberFormat>
        <!-- Mobile numbers and other 9 digit numbers starting with 7 (pager, shared cost etc.)
             Also for UAN numbers starting with 10. -->
        <numberFormat pattern=""(\d{2})(\d{3})(\d{2})(\d{2})"" nationalPrefixFormattingRule=""$NP$FG"">
          <leadingDigits>
            10|
            7
          </leadingDigits>
          <format>$1-$2 $3 $4</format>
          <intlFormat>$1 $2 $3 $4</intlFormat>
        </numberFormat>
        <!-- Fixed line numbers in Stockholm (1 digit area code) -->
        <numberFormat pattern=""(\d)(\d{3})(\d{3})(\d{2})"" nationalPrefixFormattingRule=""$NP$FG"">
";
   "          <leadingDigits>8</leadingDigits>
          <format>$1-$2 $3 $4</format>
          <intlFormat>$1 $2 $3 $4</intlFormat>
        </numberFormat>
        <!-- Fixed line numbers (3 digit area code) -->
        <numberFormat pattern=""(\d{3})(\d{2})(\d{2})(\d{2})"" nationalPrefixFormattingRule=""$NP$FG"">
          <leadingDigits>
            [13-5]|
            2(?:
              [247-9]|
              5[0138]
            )|
            6(?:
              [124-689]|
              7[0-2]
            )|
            9(?:
              [125-8]|
              3[02-5]|
              4[0-3]
            )
          </leadingDigits>
          <format>$1-$2 $3 $4</format>
          <intlFormat>$1 $2 $3 $4</intlFormat>
        </numberFormat>
        <!-- 10 digit premium rate numbers. -->
        <numberFormat pattern=""(\d{3})(\d{2})(\d{2})(\d{3})"" nationalPrefixFormattingRule=""$NP$FG"">
          <leadingDigits>9</leadingDigits>
          <format>$1-$2 $3 $4</format>
          <intlFormat>$1 $2 $3 $4</intlFormat>
        </numberFormat>
        <!-- Voicemail -->
        <numberFormat pattern=""(\d{3})(\d{2})(\d{3})(\d{2})(\d{2})""
                      nationalPrefixFormattingRule=""$NP$FG"">
          <leadingDigits>[26]</leadingDigits>
          <format>$1-$2 $3 $4 $5</format>
          <intlFormat>$1 $2 $3 $4 $5</intlFormat>
        </numberFormat>
      </availableFormats>
      <generalDesc>
        <nationalNumberPattern>
          (?:
            [26]\d\d|
            9
          )\d{9}|
          [1-9]\d{8}|
          [1-689]\d{7}|
          [1-4689]\d{6}|
          2\d{5}
        </nationalNumberPattern>
      </generalDesc>
      <fixedLine>
        <possibleLengths national=""[7-9]""/>
        <exampleNumber>8123456</exampleNumber>
        <nationalNumberPattern>
          (?:
            (?:
              [12][136]|
              3[356]|
              4[0246]|
              6[03]|
              8\d
            )\d|
            90[1-9]
          )\d{4,6}|
          (?:
";
   "            1(?:
              2[0-35]|
              4[0-4]|
              5[0-25-9]|
              7[13-6]|
              [89]\d
            )|
            2(?:
              2[0-7]|
              4[0136-8]|
              5[0138]|
              7[018]|
              8[01]|
              9[0-57]
            )|
            3(?:
              0[0-4]|
              1\d|
              2[0-25]|
              4[056]|
              7[0-2]|
              8[0-3]|
              9[023]
            )|
            4(?:
              1[013-8]|
              3[0135]|
              5[14-79]|
              7[0-246-9]|
              8[0156]|
              9[0-689]
            )|
            5(?:
              0[0-6]|
              [15][0-5]|
              2[0-68]|
              3[0-4]|
              4\d|
              6[03-5]|
              7[013]|
              8[0-79]|
              9[01]
            )|
            6(?:
              1[1-3]|
              2[0-4]|
              4[02-57]|
              5[0-37]|
              6[0-3]|
              7[0-2]|
              8[0247]|
              9[0-356]
            )|
            9(?:
              1[0-68]|
              2\d|
              3[02-5]|
              4[0-3]|
              5[0-4]|
              [68][01]|
              7[0135-8]
            )
          )\d{5,6}
        </nationalNumberPattern>
      </fixedLine>
      <mobile>
        <possibleLengths national=""9""/>
        <exampleNumber>701234567</exampleNumber>
        <nationalNumberPattern>7[02369]\d{7}</nationalNumberPattern>
      </mobile>
      <pager>
        <possibleLengths national=""9""/>
        <exampleNumber>740123456</exampleNumber>
        <nationalNumberPattern>74[02-9]\d{6}</nationalNumberPattern>
      </pager>
      <tollFree>
        <possibleLengths national=""[6-9]""/>
        <exampleNumber>20123456</exampleNumber>
        <nationalNumberPattern>20\d{4,7}</nationalNumberPattern>
      </tollFree>
      <premiumRate>
        <possibleLengths national=""[7-10]""/>
";
   "        <exampleNumber>9001234567</exampleNumber>
        <nationalNumberPattern>
          649\d{6}|
          99[1-59]\d{4}(?:
            \d{3}
          )?|
          9(?:
            00|
            39|
            44
          )[1-8]\d{3,6}
        </nationalNumberPattern>
      </premiumRate>
      <sharedCost>
        <possibleLengths national=""9""/>
        <exampleNumber>771234567</exampleNumber>
        <nationalNumberPattern>77[0-7]\d{6}</nationalNumberPattern>
      </sharedCost>
      <personalNumber>
        <possibleLengths national=""9""/>
        <exampleNumber>751234567</exampleNumber>
        <nationalNumberPattern>75[1-8]\d{6}</nationalNumberPattern>
      </personalNumber>
      <uan>
        <possibleLengths national=""9""/>
        <exampleNumber>102345678</exampleNumber>
        <nationalNumberPattern>10[1-8]\d{6}</nationalNumberPattern>
      </uan>
      <voicemail>
        <possibleLengths national=""12""/>
        <exampleNumber>254123456789</exampleNumber>
        <nationalNumberPattern>
          (?:
            25[245]|
            67[3-68]
          )\d{9}
        </nationalNumberPattern>
      </voicemail>
    </territory>"];
  ["

    <!-- Singapore (SG) -->
    <!-- https://www.imda.gov.sg/regulations-and-licensing-listing/numbering/national-numbering-plan-and-allocation-process -->
    <!-- https://en.wikipedia.org/wiki/Telephone_numbers_in_Singapore -->
    <territory id=""SG"" countryCode=""65"" internationalPrefix=""0[0-3]\d""
               mobileNumberPortableRegion=""true"">
      <availableFormats>
        <numberFormat pattern=""(\d{4,5})"">
          <leadingDigits>
            1[013-9]|
            77
          </leadingDigits>
          <leadingDigits>
            1(?:
              [013-8]|
              9(?:
                0[1-9]|
                [1-9]
              )
            )|
            77
          </leadingDigits>
          <format>$1</format>
          <intlFormat>NA</intlFormat>
        </numberFormat>
        <numberFormat pattern=""(\d{4})(\d{4})"">
          <leadingDigits>
            [369]|
            8(?:
              0[1-9]|
              [1-9]
            )
          </leadingDigits>
          <format>$1 $2</format>
        </numberFormat>
        <numberFormat pattern=""(\d{3})(\d{3})(\d{4})"">
          <leadingDigits>8</leadingDigits>
          <format>$1 $2 $3</format>
        </numberFormat>
        <numberFormat pattern=""(\d{4})(\d{4})(\d{3})"">
          <leadingDigits>7</leadingDigits>
          <format>$1 $2 $3</format>
        </numberFormat>
        <numberFormat pattern=""(\d{4})(\d{3})(\d{4})"">
          <leadingDigits>1</leadingDigits>
          <format>$1 $2 $3</format>
        </numberFormat>
      </availableFormats>
      <generalDesc>
        <nationalNumberPattern>
          (?:
            (?:
              1\d|
              8
            )\d\d|
            7000
          )\d{7}|
          [3689]\d{7}
        </nationalNumberPattern>
      </generalDesc>
      <fixedLine>
        <possibleLengths national=""8""/>
        <exampleNumber>61234567</exampleNumber>
        <nationalNumberPattern>
          662[0-24-9]\d{4}|
          6(?:
            [0-578]\d|
";
   "            6[013-57-9]|
            9[0-35-9]
          )\d{5}
        </nationalNumberPattern>
      </fixedLine>
      <!-- 802[23] ,804[1467] and 8055 are added based on user report.  -->
      <mobile>
        <possibleLengths national=""8""/>
        <exampleNumber>81234567</exampleNumber>
        <nationalNumberPattern>
          80[1-9]\d{5}|
          (?:
            8[1-9]|
            9[0-8]
          )\d{6}
        </nationalNumberPattern>
      </mobile>
      <tollFree>
        <possibleLengths national=""10,11""/>
        <exampleNumber>18001234567</exampleNumber>
        <nationalNumberPattern>
          (?:
            18|
            8
          )00\d{7}
        </nationalNumberPattern>
      </tollFree>
      <premiumRate>
        <possibleLengths national=""11""/>
        <exampleNumber>19001234567</exampleNumber>
        <nationalNumberPattern>1900\d{7}</nationalNumberPattern>
      </premiumRate>
      <voip>
        <possibleLengths national=""8""/>
        <exampleNumber>31234567</exampleNumber>
        <nationalNumberPattern>
          (?:
            3[12]\d|
            666
          )\d{5}
        </nationalNumberPattern>
      </voip>
      <!-- Although not detailed in the plan beyond mentioning their existence, it seems 7000
           numbers are used for companies. Most of the online examples are in fact alpha-numbers. -->
      <uan>
        <possibleLengths national=""11""/>
        <exampleNumber>70001234567</exampleNumber>
        <nationalNumberPattern>7000\d{7}</nationalNumberPattern>
      </uan>
    </territory>"];
  ["

    <!-- St. Helena (SH) -->
    <!-- Main region for 'TA' -->
    <!-- http://www.itu.int/oth/T02020000AF/en -->
    <territory id=""SH"" mainCountryForCode=""true"" countryCode=""290"" leadingDigits=""[256]""
               internationalPrefix=""00"">
      <generalDesc>
        <nationalNumberPattern>
          (?:
            [256]\d|
            8
          )\d{3}
        </nationalNumberPattern>
      </generalDesc>
      <!-- There is a bug in the way the library calculates whether numbers are ""possible"" for a
           region in that it uses the ""main"" country if multiple countries share a country calling
           code. Trista da Cuñha shares a country calling code with Saint Helena but has only 4
           digit numbers, so we in";
   "clude 4 as a possible length here. -->
      <!-- St Helena has changed to 5 digits on October 1. 2013 -->
      <!-- Using St Helena Tourism as the example number. -->
      <fixedLine>
        <possibleLengths national=""4,5""/>
        <exampleNumber>22158</exampleNumber>
        <nationalNumberPattern>
          2(?:
            [0-57-9]\d|
            6[4-9]
          )\d\d
        </nationalNumberPattern>
      </fixedLine>
      <!-- Effective 1st August 2015 -->
      <mobile>
        <possibleLengths national=""5""/>
        <exampleNumber>51234</exampleNumber>
        <nationalNumberPattern>[56]\d{4}</nationalNumberPattern>
      </mobile>
      <!-- The ITU doc reserves prefixes 260 and 261 for Information Service and prefix 263 for
           Flexible access. We do not support these prefixes as we do not have any information
           about their usage. -->
      <voip>
        <possibleLengths national=""5""/>
        <exampleNumber>26212</exampleNumber>
        <nationalNumberPattern>262\d\d</nationalNumberPattern>
      </voip>
    </territory>"];
  ["

    <!-- Slovenia (SI) -->
    <!-- http://www.itu.int/oth/T02020000BE/en -->
    <!-- https://www.akos-rs.si/telekomunikacije/raziscite/stevilski-prostor -->
    <territory id=""SI"" countryCode=""386"" preferredInternationalPrefix=""00""
               internationalPrefix=""00|10(?:22|66|88|99)"" nationalPrefix=""0""
               mobileNumberPortableRegion=""true"">
      <availableFormats>
        <numberFormat pattern=""(\d{2})(\d{3,6})"" nationalPrefixFormattingRule=""$NP$FG"">
          <leadingDigits>
            8[09]|
            9
          </leadingDigits>
          <format>$1 $2</format>
        </numberFormat>
        <numberFormat pattern=""(\d{3})(\d{5})"" nationalPrefixFormattingRule=""$NP$FG"">
          <leadingDigits>
            59|
            8
          </leadingDigits>
          <format>$1 $2</format>
        </numberFormat>
        <numberFormat pattern=""(\d{2})(\d{3})(\d{3})"" nationalPrefixFormattingRule=""$NP$FG"">
          <leadingDigits>
            [37][01]|
            4[013]|
            51|
            6
          </leadingDigits>
          <format>$1 $2 $3</format>
        </numberFormat>
        <numberFormat pattern=""(\d)(\d{3})(\d{2})(\d{2})"" nationalPrefixFormattingRule=""($NP$FG)"">
          <leadingDigits>[1-57]</leadingDigits>
          <format>$1 $2 $3 $4</format>
        </numberFormat>
      </availableFormats>
      <generalDesc>
        <nationalNumberPattern>
          [1-7]\d{7}|
          8\d{4,7}|
          90\d{4,6}
        </nationalNumberPattern>
      </generalDesc>
      <!-- Prefix 32 added after a user report. -->
      <fixedLine>
        <possibleLengths national=""8"" localOnly=""7""/>
        <exampleNumber>12345678</exampleNumber>
        <nationalNumberPattern>
          (?:
            [1-357][2-8]|
            4[24-8]
          )\d{6}
        </nationalNumberPattern>
      </fixedLine>
      <!-- 43 range is mentioned as geographic number in 18.VII.2018 ITU doc where as previous
           ITU doc (15.III.2017) says it is MVNO. Supporting it under mobile as we found the
";
   "           numbers does not belong to same area. -->
      <!-- Supporting all 69X numbers based on Wikipedia and some sub ranges being present
           in IR 21 doc. -->
      <!-- Prefix 049 has been removed as it is no longer listed in the latest numbering plan. -->
      <mobile>
        <possibleLengths national=""8""/>
        <exampleNumber>31234567</exampleNumber>
        <nationalNumberPattern>
          65(?:
            [178]\d|
            5[56]|
            6[01]
          )\d{4}|
          (?:
            [37][01]|
            4[013]|
            51|
            6[489]
          )\d{6}
        </nationalNumberPattern>
      </mobile>
      <tollFree>
        <possibleLengths national=""[6-8]""/>
        <exampleNumber>80123456</exampleNumber>
        <nationalNumberPattern>80\d{4,6}</nationalNumberPattern>
      </tollFree>
      <!-- Includes televoting, mass calling -->
      <premiumRate>
        <possibleLengths national=""[5-8]""/>
        <exampleNumber>90123456</exampleNumber>
        <nationalNumberPattern>
          89[1-3]\d{2,5}|
          90\d{4,6}
        </nationalNumberPattern>
      </premiumRate>
      <voip>
        <possibleLengths national=""8""/>
        <exampleNumber>59012345</exampleNumber>
        <nationalNumberPattern>
          (?:
            59\d\d|
            8(?:
              1(?:
                [67]\d|
                8[0-589]
              )|
              2(?:
                0\d|
                2[0-37-9]|
                8[0-2489]
              )|
              3[389]\d
            )
          )\d{4}
        </nationalNumberPattern>
      </voip>
    </territory>"];
  ["

    <!-- Svalbard & Jan Mayen (SJ) -->
    <!-- Calling code and formatting shared with 'NO' -->
    <!-- https://nkom.no/telefoni-og-telefonnummer/telefonnummer-og-den-norske-nummerplan/alle-nummerserier-for-norske-telefonnumre/den-norske-nummerplanen-for-telefoni-med-mer-e.164 -->
    <!-- https://en.wikipedia.org/wiki/Telephone_numbers_in_Svalbard -->
    <territory id=""SJ"" countryCode=""47"" leadingDigits=""79"" internationalPrefix=""00"">
      <generalDesc>
        <nationalNumberPattern>
          0\d{4}|
          (?:
            [489]\d|
            79
          )\d{6}
        </nationalNumberPattern>
      </generalDesc>
      <fixedLine>
        <possibleLengths national=""8""/>
        <exampleNumber>79123456</exampleNumber>
        <nationalNumberPattern>79\d{6}</nationalNumberPattern>
      </fixedLine>
      <!-- Copied fr";
   "om Norway metadata. -->
      <mobile>
        <possibleLengths national=""8""/>
        <exampleNumber>41234567</exampleNumber>
        <nationalNumberPattern>[49]\d{7}</nationalNumberPattern>
      </mobile>
      <tollFree>
        <possibleLengths national=""8""/>
        <exampleNumber>80012345</exampleNumber>
        <nationalNumberPattern>80[01]\d{5}</nationalNumberPattern>
      </tollFree>
      <premiumRate>
        <possibleLengths national=""8""/>
        <exampleNumber>82012345</exampleNumber>
        <nationalNumberPattern>82[09]\d{5}</nationalNumberPattern>
      </premiumRate>
      <sharedCost>
        <possibleLengths national=""8""/>
        <exampleNumber>81021234</exampleNumber>
        <nationalNumberPattern>
          810(?:
            0[0-6]|
            [2-8]\d
          )\d{3}
        </nationalNumberPattern>
      </sharedCost>
      <personalNumber>
        <possibleLengths national=""8""/>
        <exampleNumber>88012345</exampleNumber>
        <nationalNumberPattern>880\d{5}</nationalNumberPattern>
      </personalNumber>
      <voip>
        <possibleLengths national=""8""/>
        <exampleNumber>85012345</exampleNumber>
";
   "        <nationalNumberPattern>85[0-5]\d{5}</nationalNumberPattern>
      </voip>
      <!-- Includes some 810 lo";
   "cal-rate numbers, and long-distance rate numbers.
           04xxx is moved to Shortcodes as it can be used to send SMS as well
           https://www.dnb.no/en/everyday-banking/services/text-message -->
      <uan>
        <possibleLengths national=""5,8""/>
        <exampleNumber>02000</exampleNumber>
        <nationalNumberPattern>
          (?:
            0[235-9]|
            81(?:
              0(?:
                0[7-9]|
                1\d
              )|
              5\d\d
            )
          )\d{3}
        </nationalNumberPattern>
      </uan>
      <voicemail>
        <possibleLengths national=""8""/>
        <exampleNumber>81212345</exampleNumber>
        <nationalNumberPattern>81[23]\d{5}</nationalNumberPattern>
      </voicemail>
    </territory>"];
  ["

    <!-- Slovakia (SK) -->
    <!-- http://www.itu.int/oth/T02020000BD/en -->
    <!-- https://www.ezd.sk/dbpc/databazacisel.php -->
    <!-- http://www.teleoff.gov.sk/data/files/25211.pdf -->
    <territory id=""SK"" countryCode=""421"" internationalPrefix=""00"" nationalPrefix=""0""
               mobileNumberPortableRegion=""true"">
      <availableFormats>
        <numberFormat pattern=""(\d)(\d{2})(\d{3,4})"" nationalPrefixFormattingRule=""$NP$FG"">
          <leadingDigits>21</leadingDigits>
          <format>$1 $2 $3</format>
        </numberFormat>
        <numberFormat pattern=""(\d{2})(\d{2})(\d{2,3})"" nationalPrefixFormattingRule=""$NP$FG"">
          <leadingDigits>[3-5][1-8]1</leadingDigits>
          <leadingDigits>[3-5][1-8]1[67]</leadingDigits>
          <format>$1 $2 $3</format>
        </numberFormat>
        <numberFormat pattern=""(\d{4})(\d{3})"" nationalPrefixFormattingRule=""$NP$FG"">
          <leadingDigits>909</leadingDigits>
          <leadingDigits>9090</leadingDigits>
          <format>$1 $2</format>
          <intlFormat>NA</intlFormat>
        </numberFormat>
        <numberFormat pattern=""(\d)(\d{3})(\d{3})(\d{2})"" nationalPrefixFormattingRule=""$NP$FG"">
          <leadingDigits>2</leadingDigits>
          <format>$1 $2 $3 $4</format>
        </numberFormat>
        <numberFormat pattern=""(\d{3})(\d{3})(\d{3})"" nationalPrefixFormattingRule=""$NP$FG"">
          <leadingDigits>[689]</leadingDigits>
          <format>$1 $2 $3</format>
        </numberFormat>
        <numberFormat pattern=""(\d{2})(\d{3})(\d{2})(\d{2})"" nationalPrefixFormattingRule=""$NP$FG"">
          <leadingDigits>[3-5]</leadingDigits>
          <format>$1 $2 $3 $4</format>
        </numberFormat>
      </availableFormats>
      <generalDesc>
        <nationalNumberPattern>
          [2-689]\d{8}|
          [2-59]\d{6}|
          [2-5]\d{5}
        </nationalNumberPattern>
      </generalDesc>
      <noInternationalDialling>
        <possibleLengths national=""7,9""/>
        <nationalNumberPattern>
";
   "          9090\d{3}|
          (?:
            602|
            8(?:
              00|
              [5-9]\d
            )|
            9(?:
              00|
              [78]\d
            )
          )\d{6}
        </nationalNumberPattern>
      </noInternationalDialling>
      <!-- Added range 16 as per pattern [areacode] + 16 + SN(\d{2,4}) -->
      <fixedLine>
        <possibleLengths national=""6,7,9""/>
        <exampleNumber>221234567</exampleNumber>
        <nationalNumberPattern>
          (?:
            2(?:
              16|
              [2-9]\d{3}
            )|
            (?:
              (?:
                [3-5][1-8]\d|
                819
              )\d|
              601[1-5]
            )\d
          )\d{4}|
          (?:
            2|
            [3-5][1-8]
          )1[67]\d{3}|
          [3-5][1-8]16\d\d
        </nationalNumberPattern>
      </fixedLine>
      <!-- 948 isn't in the number pattern, but many examples using this have been found, so
           deeming it valid for now. 909[1-9] is assigned to carrier Juro as per online
           references found. 945 is assigned to Orange as per its carrier doc. -->
      <mobile>
        <possibleLengths national=""9""/>
        <exampleNumber>912123456</exampleNumber>
        <nationalNumberPattern>
          909[1-9]\d{5}|
          9(?:
            0[1-8]|
            1[0-24-9]|
            4[03-57-9]|
            5\d
          )\d{6}
        </nationalNumberPattern>
      </mobile>
      <pager>
        <possibleLengths national=""7""/>
        <exampleNumber>9090123</exampleNumber>
        <nationalNumberPattern>9090\d{3}</nationalNumberPattern>
      </pager>
      <tollFree>
        <possibleLengths national=""9""/>
        <exampleNumber>800123456</exampleNumber>
        <nationalNumberPattern>800\d{6}</nationalNumberPattern>
      </tollFree>
      <premiumRate>
        <possibleLengths national=""9""/>
        <exampleNumber>900123456</exampleNumber>
        <nationalNumberPattern>
          9(?:
";
   "            00|
            [78]\d
          )\d{6}
        </nationalNumberPattern>
      </premiumRate>
      <sharedCost>
        <possibleLengths national=""9""/>
        <exampleNumber>850123456</exampleNumber>
        <nationalNumberPattern>8[5-9]\d{7}</nationalNumberPattern>
      </sharedCost>
      <voip>
        <possibleLengths national=""9""/>
        <exampleNumber>690123456</exampleNumber>
        <nationalNumberPattern>
          6(?:
            02|
            5[0-4]|
            9[0-6]
          )\d{6}
        </nationalNumberPattern>
      </voip>
      <uan>
        <possibleLengths national=""9""/>
        <exampleNumber>961234567</exampleNumber>
        <nationalNumberPattern>96\d{7}</nationalNumberPattern>
      </uan>
    </territory>"];
  ["

    <!-- Sierra Leone (SL) -->
    <!-- http://www.itu.int/oth/T02020000BB/en -->
    <territory id=""SL"" countryCode=""232"" internationalPrefix=""00"" nationalPrefix=""0"">
      <availableFormats>
        <!-- Following formatting of online yellow pages http://www.leonedirect.com -->
        <numberFormat pattern=""(\d{2})(\d{6})"" nationalPrefixFormattingRule=""($NP$FG)"">
          <leadingDigits>[236-9]</leadingDigits>
          <format>$1 $2</format>
        </numberFormat>
      </availableFormats>
      <generalDesc>
        <nationalNumberPattern>
          (?:
            [237-9]\d|
            66
          )\d{6}
        </nationalNumberPattern>
      </generalDesc>
      <fixedLine>
        <possibleLengths national=""8"" localOnly=""6""/>
        <exampleNumber>22221234</exampleNumber>
        <nationalNumberPattern>22[2-4][2-9]\d{4}</nationalNumberPattern>
      </fixedLine>
      <mobile>
        <possibleLengths national=""8""/>
        <exampleNumber>25123456</exampleNumber>
        <nationalNumberPattern>
          (?:
            25|
            3[0-5]|
            66|
            7\d|
            8[08]|
            9[09]
          )\d{6}
        </nationalNumberPattern>
      </mobile>
    </territory>"];
  ["

    <!-- San Marino (SM) -->
    <!-- San Marino fixed-line numbers have an area code of ""0549"". However, this seems to be
         optional when dialling fr";
   "om outside the country; the phone number can be reached both with
         and without this area code. The nationalPrefixForParsing and nationalPrefixTransformRule
         are used to ensure that if the 0549 is not present, it will be added. -->
    <!-- Information about Italy. -->
    <!-- http://www.itu.int/oth/T02020000B5/en -->
    <!-- http://en.wikipedia.org/wiki/%2B39 -->
    <!-- http://en.wikipedia.org/wiki/%2B378 -->
    <territory id=""SM"" countryCode=""378"" internationalPrefix=""00""
               nationalPrefixForParsing=""([89]\d{5})$"" nationalPrefixTransformRule=""0549$1"">
      <availableFormats>
        <numberFormat pattern=""(\d{6})"">
          <leadingDigits>[89]</leadingDigits>
          <format>$1</format>
          <intlFormat>NA</intlFormat>
        </numberFormat>
        <!-- Non-geographic numbers (without 0549 prefix). -->
        <numberFormat pattern=""(\d{2})(\d{2})(\d{2})(\d{2})"">
          <leadingDigits>[5-7]</leadingDigits>
          <format>$1 $2 $3 $4</format>
        </numberFormat>
        <!-- We follow the guidelines of the yellow-pages when formatting in national format. -->
        <numberFormat pattern=""(\d{4})(\d{6})"">
          <leadingDigits>0</leadingDigits>
          <format>$1 $2</format>
        </numberFormat>
      </availableFormats>
      <generalDesc>
        <nationalNumberPattern>
          (?:
            0549|
            [5-7]\d
          )\d{6}
        </nationalNumberPattern>
      </generalDesc>
      <!-- Example numbers provided by the Telecommunications Services. -->
      <fixedLine>
        <possibleLengths national=""10"" localOnly=""6""/>
        <exampleNumber>0549886377</exampleNumber>
        <nationalNumberPattern>
          0549(?:
            8[0157-9]|
            9\d
          )\d{4}
        </nationalNumberPattern>
      </fixedLine>
      <mobile>
";
   "        <possibleLengths national=""8""/>
        <exampleNumber>66661212</exampleNumber>
        <nationalNumberPattern>6[16]\d{6}</nationalNumberPattern>
      </mobile>
      <!-- Includes Video Call numbers. -->
      <premiumRate>
        <possibleLengths national=""8""/>
        <exampleNumber>71123456</exampleNumber>
        <nationalNumberPattern>7[178]\d{6}</nationalNumberPattern>
      </premiumRate>
      <voip>
        <possibleLengths national=""8""/>
        <exampleNumber>58001110</exampleNumber>
        <nationalNumberPattern>5[158]\d{6}</nationalNumberPattern>
      </voip>
    </territory>"]].
