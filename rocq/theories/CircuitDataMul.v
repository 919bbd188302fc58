(** Generated: the circuit file yacl/io/circuit/data/mult64.txt, gate by gate
    in the order of the file, and the adders found in it. *)
From Coq Require Import NArith ZArith List.
From Verif Require Import CircuitModel CircuitCheck BuiltinProof.
Import ListNotations.
Open Scope N_scope.

Definition mult64_gates : list gate := [
  G2 AND 127 0 2206; G2 AND 126 1 2204; G2 AND 126 0 2205; G2 AND 125 2 2201; G2 AND 125 1 2202;
  G2 AND 125 0 2203; G2 AND 124 3 2197; G2 AND 124 2 2198; G2 AND 124 1 2199; G2 AND 124 0 2200;
  G2 AND 123 4 2192; G2 AND 123 3 2193; G2 AND 123 2 2194; G2 AND 123 1 2195; G2 AND 123 0 2196;
  G2 AND 122 5 2186; G2 AND 122 4 2187; G2 AND 122 3 2188; G2 AND 122 2 2189; G2 AND 122 1 2190;
  G2 AND 122 0 2191; G2 AND 121 6 2179; G2 AND 121 5 2180; G2 AND 121 4 2181; G2 AND 121 3 2182;
  G2 AND 121 2 2183; G2 AND 121 1 2184; G2 AND 121 0 2185; G2 AND 120 7 2171; G2 AND 120 6 2172;
  G2 AND 120 5 2173; G2 AND 120 4 2174; G2 AND 120 3 2175; G2 AND 120 2 2176; G2 AND 120 1 2177;
  G2 AND 120 0 2178; G2 AND 119 8 2162; G2 AND 119 7 2163; G2 AND 119 6 2164; G2 AND 119 5 2165;
  G2 AND 119 4 2166; G2 AND 119 3 2167; G2 AND 119 2 2168; G2 AND 119 1 2169; G2 AND 119 0 2170;
  G2 AND 118 9 2152; G2 AND 118 8 2153; G2 AND 118 7 2154; G2 AND 118 6 2155; G2 AND 118 5 2156;
  G2 AND 118 4 2157; G2 AND 118 3 2158; G2 AND 118 2 2159; G2 AND 118 1 2160; G2 AND 118 0 2161;
  G2 AND 117 10 2141; G2 AND 117 9 2142; G2 AND 117 8 2143; G2 AND 117 7 2144; G2 AND 117 6 2145;
  G2 AND 117 5 2146; G2 AND 117 4 2147; G2 AND 117 3 2148; G2 AND 117 2 2149; G2 AND 117 1 2150;
  G2 AND 117 0 2151; G2 AND 116 11 2129; G2 AND 116 10 2130; G2 AND 116 9 2131; G2 AND 116 8 2132;
  G2 AND 116 7 2133; G2 AND 116 6 2134; G2 AND 116 5 2135; G2 AND 116 4 2136; G2 AND 116 3 2137;
  G2 AND 116 2 2138; G2 AND 116 1 2139; G2 AND 116 0 2140; G2 AND 115 12 2116; G2 AND 115 11 2117;
  G2 AND 115 10 2118; G2 AND 115 9 2119; G2 AND 115 8 2120; G2 AND 115 7 2121; G2 AND 115 6 2122;
  G2 AND 115 5 2123; G2 AND 115 4 2124; G2 AND 115 3 2125; G2 AND 115 2 2126; G2 AND 115 1 2127;
  G2 AND 115 0 2128; G2 AND 114 13 2102; G2 AND 114 12 2103; G2 AND 114 11 2104; G2 AND 114 10 2105;
  G2 AND 114 9 2106; G2 AND 114 8 2107; G2 AND 114 7 2108; G2 AND 114 6 2109; G2 AND 114 5 2110;
  G2 AND 114 4 2111; G2 AND 114 3 2112; G2 AND 114 2 2113; G2 AND 114 1 2114; G2 AND 114 0 2115;
  G2 AND 113 14 2087; G2 AND 113 13 2088; G2 AND 113 12 2089; G2 AND 113 11 2090; G2 AND 113 10 2091;
  G2 AND 113 9 2092; G2 AND 113 8 2093; G2 AND 113 7 2094; G2 AND 113 6 2095; G2 AND 113 5 2096;
  G2 AND 113 4 2097; G2 AND 113 3 2098; G2 AND 113 2 2099; G2 AND 113 1 2100; G2 AND 113 0 2101;
  G2 AND 112 15 2071; G2 AND 112 14 2072; G2 AND 112 13 2073; G2 AND 112 12 2074; G2 AND 112 11 2075;
  G2 AND 112 10 2076; G2 AND 112 9 2077; G2 AND 112 8 2078; G2 AND 112 7 2079; G2 AND 112 6 2080;
  G2 AND 112 5 2081; G2 AND 112 4 2082; G2 AND 112 3 2083; G2 AND 112 2 2084; G2 AND 112 1 2085;
  G2 AND 112 0 2086; G2 AND 111 16 2054; G2 AND 111 15 2055; G2 AND 111 14 2056; G2 AND 111 13 2057;
  G2 AND 111 12 2058; G2 AND 111 11 2059; G2 AND 111 10 2060; G2 AND 111 9 2061; G2 AND 111 8 2062;
  G2 AND 111 7 2063; G2 AND 111 6 2064; G2 AND 111 5 2065; G2 AND 111 4 2066; G2 AND 111 3 2067;
  G2 AND 111 2 2068; G2 AND 111 1 2069; G2 AND 111 0 2070; G2 AND 110 17 2036; G2 AND 110 16 2037;
  G2 AND 110 15 2038; G2 AND 110 14 2039; G2 AND 110 13 2040; G2 AND 110 12 2041; G2 AND 110 11 2042;
  G2 AND 110 10 2043; G2 AND 110 9 2044; G2 AND 110 8 2045; G2 AND 110 7 2046; G2 AND 110 6 2047;
  G2 AND 110 5 2048; G2 AND 110 4 2049; G2 AND 110 3 2050; G2 AND 110 2 2051; G2 AND 110 1 2052;
  G2 AND 110 0 2053; G2 AND 109 18 2017; G2 AND 109 17 2018; G2 AND 109 16 2019; G2 AND 109 15 2020;
  G2 AND 109 14 2021; G2 AND 109 13 2022; G2 AND 109 12 2023; G2 AND 109 11 2024; G2 AND 109 10 2025;
  G2 AND 109 9 2026; G2 AND 109 8 2027; G2 AND 109 7 2028; G2 AND 109 6 2029; G2 AND 109 5 2030;
  G2 AND 109 4 2031; G2 AND 109 3 2032; G2 AND 109 2 2033; G2 AND 109 1 2034; G2 AND 109 0 2035;
  G2 AND 108 19 1997; G2 AND 108 18 1998; G2 AND 108 17 1999; G2 AND 108 16 2000; G2 AND 108 15 2001;
  G2 AND 108 14 2002; G2 AND 108 13 2003; G2 AND 108 12 2004; G2 AND 108 11 2005; G2 AND 108 10 2006;
  G2 AND 108 9 2007; G2 AND 108 8 2008; G2 AND 108 7 2009; G2 AND 108 6 2010; G2 AND 108 5 2011;
  G2 AND 108 4 2012; G2 AND 108 3 2013; G2 AND 108 2 2014; G2 AND 108 1 2015; G2 AND 108 0 2016;
  G2 AND 107 20 1976; G2 AND 107 19 1977; G2 AND 107 18 1978; G2 AND 107 17 1979; G2 AND 107 16 1980;
  G2 AND 107 15 1981; G2 AND 107 14 1982; G2 AND 107 13 1983; G2 AND 107 12 1984; G2 AND 107 11 1985;
  G2 AND 107 10 1986; G2 AND 107 9 1987; G2 AND 107 8 1988; G2 AND 107 7 1989; G2 AND 107 6 1990;
  G2 AND 107 5 1991; G2 AND 107 4 1992; G2 AND 107 3 1993; G2 AND 107 2 1994; G2 AND 107 1 1995;
  G2 AND 107 0 1996; G2 AND 106 21 1954; G2 AND 106 20 1955; G2 AND 106 19 1956; G2 AND 106 18 1957;
  G2 AND 106 17 1958; G2 AND 106 16 1959; G2 AND 106 15 1960; G2 AND 106 14 1961; G2 AND 106 13 1962;
  G2 AND 106 12 1963; G2 AND 106 11 1964; G2 AND 106 10 1965; G2 AND 106 9 1966; G2 AND 106 8 1967;
  G2 AND 106 7 1968; G2 AND 106 6 1969; G2 AND 106 5 1970; G2 AND 106 4 1971; G2 AND 106 3 1972;
  G2 AND 106 2 1973; G2 AND 106 1 1974; G2 AND 106 0 1975; G2 AND 105 22 1931; G2 AND 105 21 1932;
  G2 AND 105 20 1933; G2 AND 105 19 1934; G2 AND 105 18 1935; G2 AND 105 17 1936; G2 AND 105 16 1937;
  G2 AND 105 15 1938; G2 AND 105 14 1939; G2 AND 105 13 1940; G2 AND 105 12 1941; G2 AND 105 11 1942;
  G2 AND 105 10 1943; G2 AND 105 9 1944; G2 AND 105 8 1945; G2 AND 105 7 1946; G2 AND 105 6 1947;
  G2 AND 105 5 1948; G2 AND 105 4 1949; G2 AND 105 3 1950; G2 AND 105 2 1951; G2 AND 105 1 1952;
  G2 AND 105 0 1953; G2 AND 104 23 1907; G2 AND 104 22 1908; G2 AND 104 21 1909; G2 AND 104 20 1910;
  G2 AND 104 19 1911; G2 AND 104 18 1912; G2 AND 104 17 1913; G2 AND 104 16 1914; G2 AND 104 15 1915;
  G2 AND 104 14 1916; G2 AND 104 13 1917; G2 AND 104 12 1918; G2 AND 104 11 1919; G2 AND 104 10 1920;
  G2 AND 104 9 1921; G2 AND 104 8 1922; G2 AND 104 7 1923; G2 AND 104 6 1924; G2 AND 104 5 1925;
  G2 AND 104 4 1926; G2 AND 104 3 1927; G2 AND 104 2 1928; G2 AND 104 1 1929; G2 AND 104 0 1930;
  G2 AND 103 24 1882; G2 AND 103 23 1883; G2 AND 103 22 1884; G2 AND 103 21 1885; G2 AND 103 20 1886;
  G2 AND 103 19 1887; G2 AND 103 18 1888; G2 AND 103 17 1889; G2 AND 103 16 1890; G2 AND 103 15 1891;
  G2 AND 103 14 1892; G2 AND 103 13 1893; G2 AND 103 12 1894; G2 AND 103 11 1895; G2 AND 103 10 1896;
  G2 AND 103 9 1897; G2 AND 103 8 1898; G2 AND 103 7 1899; G2 AND 103 6 1900; G2 AND 103 5 1901;
  G2 AND 103 4 1902; G2 AND 103 3 1903; G2 AND 103 2 1904; G2 AND 103 1 1905; G2 AND 103 0 1906;
  G2 AND 102 25 1856; G2 AND 102 24 1857; G2 AND 102 23 1858; G2 AND 102 22 1859; G2 AND 102 21 1860;
  G2 AND 102 20 1861; G2 AND 102 19 1862; G2 AND 102 18 1863; G2 AND 102 17 1864; G2 AND 102 16 1865;
  G2 AND 102 15 1866; G2 AND 102 14 1867; G2 AND 102 13 1868; G2 AND 102 12 1869; G2 AND 102 11 1870;
  G2 AND 102 10 1871; G2 AND 102 9 1872; G2 AND 102 8 1873; G2 AND 102 7 1874; G2 AND 102 6 1875;
  G2 AND 102 5 1876; G2 AND 102 4 1877; G2 AND 102 3 1878; G2 AND 102 2 1879; G2 AND 102 1 1880;
  G2 AND 102 0 1881; G2 AND 101 26 1829; G2 AND 101 25 1830; G2 AND 101 24 1831; G2 AND 101 23 1832;
  G2 AND 101 22 1833; G2 AND 101 21 1834; G2 AND 101 20 1835; G2 AND 101 19 1836; G2 AND 101 18 1837;
  G2 AND 101 17 1838; G2 AND 101 16 1839; G2 AND 101 15 1840; G2 AND 101 14 1841; G2 AND 101 13 1842;
  G2 AND 101 12 1843; G2 AND 101 11 1844; G2 AND 101 10 1845; G2 AND 101 9 1846; G2 AND 101 8 1847;
  G2 AND 101 7 1848; G2 AND 101 6 1849; G2 AND 101 5 1850; G2 AND 101 4 1851; G2 AND 101 3 1852;
  G2 AND 101 2 1853; G2 AND 101 1 1854; G2 AND 101 0 1855; G2 AND 100 27 1801; G2 AND 100 26 1802;
  G2 AND 100 25 1803; G2 AND 100 24 1804; G2 AND 100 23 1805; G2 AND 100 22 1806; G2 AND 100 21 1807;
  G2 AND 100 20 1808; G2 AND 100 19 1809; G2 AND 100 18 1810; G2 AND 100 17 1811; G2 AND 100 16 1812;
  G2 AND 100 15 1813; G2 AND 100 14 1814; G2 AND 100 13 1815; G2 AND 100 12 1816; G2 AND 100 11 1817;
  G2 AND 100 10 1818; G2 AND 100 9 1819; G2 AND 100 8 1820; G2 AND 100 7 1821; G2 AND 100 6 1822;
  G2 AND 100 5 1823; G2 AND 100 4 1824; G2 AND 100 3 1825; G2 AND 100 2 1826; G2 AND 100 1 1827;
  G2 AND 100 0 1828; G2 AND 99 28 1772; G2 AND 99 27 1773; G2 AND 99 26 1774; G2 AND 99 25 1775;
  G2 AND 99 24 1776; G2 AND 99 23 1777; G2 AND 99 22 1778; G2 AND 99 21 1779; G2 AND 99 20 1780;
  G2 AND 99 19 1781; G2 AND 99 18 1782; G2 AND 99 17 1783; G2 AND 99 16 1784; G2 AND 99 15 1785;
  G2 AND 99 14 1786; G2 AND 99 13 1787; G2 AND 99 12 1788; G2 AND 99 11 1789; G2 AND 99 10 1790;
  G2 AND 99 9 1791; G2 AND 99 8 1792; G2 AND 99 7 1793; G2 AND 99 6 1794; G2 AND 99 5 1795; G2 AND 99 4 1796;
  G2 AND 99 3 1797; G2 AND 99 2 1798; G2 AND 99 1 1799; G2 AND 99 0 1800; G2 AND 98 29 1742;
  G2 AND 98 28 1743; G2 AND 98 27 1744; G2 AND 98 26 1745; G2 AND 98 25 1746; G2 AND 98 24 1747;
  G2 AND 98 23 1748; G2 AND 98 22 1749; G2 AND 98 21 1750; G2 AND 98 20 1751; G2 AND 98 19 1752;
  G2 AND 98 18 1753; G2 AND 98 17 1754; G2 AND 98 16 1755; G2 AND 98 15 1756; G2 AND 98 14 1757;
  G2 AND 98 13 1758; G2 AND 98 12 1759; G2 AND 98 11 1760; G2 AND 98 10 1761; G2 AND 98 9 1762;
  G2 AND 98 8 1763; G2 AND 98 7 1764; G2 AND 98 6 1765; G2 AND 98 5 1766; G2 AND 98 4 1767; G2 AND 98 3 1768;
  G2 AND 98 2 1769; G2 AND 98 1 1770; G2 AND 98 0 1771; G2 AND 97 30 1711; G2 AND 97 29 1712;
  G2 AND 97 28 1713; G2 AND 97 27 1714; G2 AND 97 26 1715; G2 AND 97 25 1716; G2 AND 97 24 1717;
  G2 AND 97 23 1718; G2 AND 97 22 1719; G2 AND 97 21 1720; G2 AND 97 20 1721; G2 AND 97 19 1722;
  G2 AND 97 18 1723; G2 AND 97 17 1724; G2 AND 97 16 1725; G2 AND 97 15 1726; G2 AND 97 14 1727;
  G2 AND 97 13 1728; G2 AND 97 12 1729; G2 AND 97 11 1730; G2 AND 97 10 1731; G2 AND 97 9 1732;
  G2 AND 97 8 1733; G2 AND 97 7 1734; G2 AND 97 6 1735; G2 AND 97 5 1736; G2 AND 97 4 1737; G2 AND 97 3 1738;
  G2 AND 97 2 1739; G2 AND 97 1 1740; G2 AND 97 0 1741; G2 AND 96 31 1679; G2 AND 96 30 1680;
  G2 AND 96 29 1681; G2 AND 96 28 1682; G2 AND 96 27 1683; G2 AND 96 26 1684; G2 AND 96 25 1685;
  G2 AND 96 24 1686; G2 AND 96 23 1687; G2 AND 96 22 1688; G2 AND 96 21 1689; G2 AND 96 20 1690;
  G2 AND 96 19 1691; G2 AND 96 18 1692; G2 AND 96 17 1693; G2 AND 96 16 1694; G2 AND 96 15 1695;
  G2 AND 96 14 1696; G2 AND 96 13 1697; G2 AND 96 12 1698; G2 AND 96 11 1699; G2 AND 96 10 1700;
  G2 AND 96 9 1701; G2 AND 96 8 1702; G2 AND 96 7 1703; G2 AND 96 6 1704; G2 AND 96 5 1705; G2 AND 96 4 1706;
  G2 AND 96 3 1707; G2 AND 96 2 1708; G2 AND 96 1 1709; G2 AND 96 0 1710; G2 AND 95 32 1646;
  G2 AND 95 31 1647; G2 AND 95 30 1648; G2 AND 95 29 1649; G2 AND 95 28 1650; G2 AND 95 27 1651;
  G2 AND 95 26 1652; G2 AND 95 25 1653; G2 AND 95 24 1654; G2 AND 95 23 1655; G2 AND 95 22 1656;
  G2 AND 95 21 1657; G2 AND 95 20 1658; G2 AND 95 19 1659; G2 AND 95 18 1660; G2 AND 95 17 1661;
  G2 AND 95 16 1662; G2 AND 95 15 1663; G2 AND 95 14 1664; G2 AND 95 13 1665; G2 AND 95 12 1666;
  G2 AND 95 11 1667; G2 AND 95 10 1668; G2 AND 95 9 1669; G2 AND 95 8 1670; G2 AND 95 7 1671;
  G2 AND 95 6 1672; G2 AND 95 5 1673; G2 AND 95 4 1674; G2 AND 95 3 1675; G2 AND 95 2 1676; G2 AND 95 1 1677;
  G2 AND 95 0 1678; G2 AND 94 33 1612; G2 AND 94 32 1613; G2 AND 94 31 1614; G2 AND 94 30 1615;
  G2 AND 94 29 1616; G2 AND 94 28 1617; G2 AND 94 27 1618; G2 AND 94 26 1619; G2 AND 94 25 1620;
  G2 AND 94 24 1621; G2 AND 94 23 1622; G2 AND 94 22 1623; G2 AND 94 21 1624; G2 AND 94 20 1625;
  G2 AND 94 19 1626; G2 AND 94 18 1627; G2 AND 94 17 1628; G2 AND 94 16 1629; G2 AND 94 15 1630;
  G2 AND 94 14 1631; G2 AND 94 13 1632; G2 AND 94 12 1633; G2 AND 94 11 1634; G2 AND 94 10 1635;
  G2 AND 94 9 1636; G2 AND 94 8 1637; G2 AND 94 7 1638; G2 AND 94 6 1639; G2 AND 94 5 1640; G2 AND 94 4 1641;
  G2 AND 94 3 1642; G2 AND 94 2 1643; G2 AND 94 1 1644; G2 AND 94 0 1645; G2 AND 93 34 1577;
  G2 AND 93 33 1578; G2 AND 93 32 1579; G2 AND 93 31 1580; G2 AND 93 30 1581; G2 AND 93 29 1582;
  G2 AND 93 28 1583; G2 AND 93 27 1584; G2 AND 93 26 1585; G2 AND 93 25 1586; G2 AND 93 24 1587;
  G2 AND 93 23 1588; G2 AND 93 22 1589; G2 AND 93 21 1590; G2 AND 93 20 1591; G2 AND 93 19 1592;
  G2 AND 93 18 1593; G2 AND 93 17 1594; G2 AND 93 16 1595; G2 AND 93 15 1596; G2 AND 93 14 1597;
  G2 AND 93 13 1598; G2 AND 93 12 1599; G2 AND 93 11 1600; G2 AND 93 10 1601; G2 AND 93 9 1602;
  G2 AND 93 8 1603; G2 AND 93 7 1604; G2 AND 93 6 1605; G2 AND 93 5 1606; G2 AND 93 4 1607; G2 AND 93 3 1608;
  G2 AND 93 2 1609; G2 AND 93 1 1610; G2 AND 93 0 1611; G2 AND 92 35 1541; G2 AND 92 34 1542;
  G2 AND 92 33 1543; G2 AND 92 32 1544; G2 AND 92 31 1545; G2 AND 92 30 1546; G2 AND 92 29 1547;
  G2 AND 92 28 1548; G2 AND 92 27 1549; G2 AND 92 26 1550; G2 AND 92 25 1551; G2 AND 92 24 1552;
  G2 AND 92 23 1553; G2 AND 92 22 1554; G2 AND 92 21 1555; G2 AND 92 20 1556; G2 AND 92 19 1557;
  G2 AND 92 18 1558; G2 AND 92 17 1559; G2 AND 92 16 1560; G2 AND 92 15 1561; G2 AND 92 14 1562;
  G2 AND 92 13 1563; G2 AND 92 12 1564; G2 AND 92 11 1565; G2 AND 92 10 1566; G2 AND 92 9 1567;
  G2 AND 92 8 1568; G2 AND 92 7 1569; G2 AND 92 6 1570; G2 AND 92 5 1571; G2 AND 92 4 1572; G2 AND 92 3 1573;
  G2 AND 92 2 1574; G2 AND 92 1 1575; G2 AND 92 0 1576; G2 AND 91 36 1504; G2 AND 91 35 1505;
  G2 AND 91 34 1506; G2 AND 91 33 1507; G2 AND 91 32 1508; G2 AND 91 31 1509; G2 AND 91 30 1510;
  G2 AND 91 29 1511; G2 AND 91 28 1512; G2 AND 91 27 1513; G2 AND 91 26 1514; G2 AND 91 25 1515;
  G2 AND 91 24 1516; G2 AND 91 23 1517; G2 AND 91 22 1518; G2 AND 91 21 1519; G2 AND 91 20 1520;
  G2 AND 91 19 1521; G2 AND 91 18 1522; G2 AND 91 17 1523; G2 AND 91 16 1524; G2 AND 91 15 1525;
  G2 AND 91 14 1526; G2 AND 91 13 1527; G2 AND 91 12 1528; G2 AND 91 11 1529; G2 AND 91 10 1530;
  G2 AND 91 9 1531; G2 AND 91 8 1532; G2 AND 91 7 1533; G2 AND 91 6 1534; G2 AND 91 5 1535; G2 AND 91 4 1536;
  G2 AND 91 3 1537; G2 AND 91 2 1538; G2 AND 91 1 1539; G2 AND 91 0 1540; G2 AND 90 37 1466;
  G2 AND 90 36 1467; G2 AND 90 35 1468; G2 AND 90 34 1469; G2 AND 90 33 1470; G2 AND 90 32 1471;
  G2 AND 90 31 1472; G2 AND 90 30 1473; G2 AND 90 29 1474; G2 AND 90 28 1475; G2 AND 90 27 1476;
  G2 AND 90 26 1477; G2 AND 90 25 1478; G2 AND 90 24 1479; G2 AND 90 23 1480; G2 AND 90 22 1481;
  G2 AND 90 21 1482; G2 AND 90 20 1483; G2 AND 90 19 1484; G2 AND 90 18 1485; G2 AND 90 17 1486;
  G2 AND 90 16 1487; G2 AND 90 15 1488; G2 AND 90 14 1489; G2 AND 90 13 1490; G2 AND 90 12 1491;
  G2 AND 90 11 1492; G2 AND 90 10 1493; G2 AND 90 9 1494; G2 AND 90 8 1495; G2 AND 90 7 1496;
  G2 AND 90 6 1497; G2 AND 90 5 1498; G2 AND 90 4 1499; G2 AND 90 3 1500; G2 AND 90 2 1501; G2 AND 90 1 1502;
  G2 AND 90 0 1503; G2 AND 89 38 1427; G2 AND 89 37 1428; G2 AND 89 36 1429; G2 AND 89 35 1430;
  G2 AND 89 34 1431; G2 AND 89 33 1432; G2 AND 89 32 1433; G2 AND 89 31 1434; G2 AND 89 30 1435;
  G2 AND 89 29 1436; G2 AND 89 28 1437; G2 AND 89 27 1438; G2 AND 89 26 1439; G2 AND 89 25 1440;
  G2 AND 89 24 1441; G2 AND 89 23 1442; G2 AND 89 22 1443; G2 AND 89 21 1444; G2 AND 89 20 1445;
  G2 AND 89 19 1446; G2 AND 89 18 1447; G2 AND 89 17 1448; G2 AND 89 16 1449; G2 AND 89 15 1450;
  G2 AND 89 14 1451; G2 AND 89 13 1452; G2 AND 89 12 1453; G2 AND 89 11 1454; G2 AND 89 10 1455;
  G2 AND 89 9 1456; G2 AND 89 8 1457; G2 AND 89 7 1458; G2 AND 89 6 1459; G2 AND 89 5 1460; G2 AND 89 4 1461;
  G2 AND 89 3 1462; G2 AND 89 2 1463; G2 AND 89 1 1464; G2 AND 89 0 1465; G2 AND 88 39 1387;
  G2 AND 88 38 1388; G2 AND 88 37 1389; G2 AND 88 36 1390; G2 AND 88 35 1391; G2 AND 88 34 1392;
  G2 AND 88 33 1393; G2 AND 88 32 1394; G2 AND 88 31 1395; G2 AND 88 30 1396; G2 AND 88 29 1397;
  G2 AND 88 28 1398; G2 AND 88 27 1399; G2 AND 88 26 1400; G2 AND 88 25 1401; G2 AND 88 24 1402;
  G2 AND 88 23 1403; G2 AND 88 22 1404; G2 AND 88 21 1405; G2 AND 88 20 1406; G2 AND 88 19 1407;
  G2 AND 88 18 1408; G2 AND 88 17 1409; G2 AND 88 16 1410; G2 AND 88 15 1411; G2 AND 88 14 1412;
  G2 AND 88 13 1413; G2 AND 88 12 1414; G2 AND 88 11 1415; G2 AND 88 10 1416; G2 AND 88 9 1417;
  G2 AND 88 8 1418; G2 AND 88 7 1419; G2 AND 88 6 1420; G2 AND 88 5 1421; G2 AND 88 4 1422; G2 AND 88 3 1423;
  G2 AND 88 2 1424; G2 AND 88 1 1425; G2 AND 88 0 1426; G2 AND 87 40 1346; G2 AND 87 39 1347;
  G2 AND 87 38 1348; G2 AND 87 37 1349; G2 AND 87 36 1350; G2 AND 87 35 1351; G2 AND 87 34 1352;
  G2 AND 87 33 1353; G2 AND 87 32 1354; G2 AND 87 31 1355; G2 AND 87 30 1356; G2 AND 87 29 1357;
  G2 AND 87 28 1358; G2 AND 87 27 1359; G2 AND 87 26 1360; G2 AND 87 25 1361; G2 AND 87 24 1362;
  G2 AND 87 23 1363; G2 AND 87 22 1364; G2 AND 87 21 1365; G2 AND 87 20 1366; G2 AND 87 19 1367;
  G2 AND 87 18 1368; G2 AND 87 17 1369; G2 AND 87 16 1370; G2 AND 87 15 1371; G2 AND 87 14 1372;
  G2 AND 87 13 1373; G2 AND 87 12 1374; G2 AND 87 11 1375; G2 AND 87 10 1376; G2 AND 87 9 1377;
  G2 AND 87 8 1378; G2 AND 87 7 1379; G2 AND 87 6 1380; G2 AND 87 5 1381; G2 AND 87 4 1382; G2 AND 87 3 1383;
  G2 AND 87 2 1384; G2 AND 87 1 1385; G2 AND 87 0 1386; G2 AND 86 41 1304; G2 AND 86 40 1305;
  G2 AND 86 39 1306; G2 AND 86 38 1307; G2 AND 86 37 1308; G2 AND 86 36 1309; G2 AND 86 35 1310;
  G2 AND 86 34 1311; G2 AND 86 33 1312; G2 AND 86 32 1313; G2 AND 86 31 1314; G2 AND 86 30 1315;
  G2 AND 86 29 1316; G2 AND 86 28 1317; G2 AND 86 27 1318; G2 AND 86 26 1319; G2 AND 86 25 1320;
  G2 AND 86 24 1321; G2 AND 86 23 1322; G2 AND 86 22 1323; G2 AND 86 21 1324; G2 AND 86 20 1325;
  G2 AND 86 19 1326; G2 AND 86 18 1327; G2 AND 86 17 1328; G2 AND 86 16 1329; G2 AND 86 15 1330;
  G2 AND 86 14 1331; G2 AND 86 13 1332; G2 AND 86 12 1333; G2 AND 86 11 1334; G2 AND 86 10 1335;
  G2 AND 86 9 1336; G2 AND 86 8 1337; G2 AND 86 7 1338; G2 AND 86 6 1339; G2 AND 86 5 1340; G2 AND 86 4 1341;
  G2 AND 86 3 1342; G2 AND 86 2 1343; G2 AND 86 1 1344; G2 AND 86 0 1345; G2 AND 85 42 1261;
  G2 AND 85 41 1262; G2 AND 85 40 1263; G2 AND 85 39 1264; G2 AND 85 38 1265; G2 AND 85 37 1266;
  G2 AND 85 36 1267; G2 AND 85 35 1268; G2 AND 85 34 1269; G2 AND 85 33 1270; G2 AND 85 32 1271;
  G2 AND 85 31 1272; G2 AND 85 30 1273; G2 AND 85 29 1274; G2 AND 85 28 1275; G2 AND 85 27 1276;
  G2 AND 85 26 1277; G2 AND 85 25 1278; G2 AND 85 24 1279; G2 AND 85 23 1280; G2 AND 85 22 1281;
  G2 AND 85 21 1282; G2 AND 85 20 1283; G2 AND 85 19 1284; G2 AND 85 18 1285; G2 AND 85 17 1286;
  G2 AND 85 16 1287; G2 AND 85 15 1288; G2 AND 85 14 1289; G2 AND 85 13 1290; G2 AND 85 12 1291;
  G2 AND 85 11 1292; G2 AND 85 10 1293; G2 AND 85 9 1294; G2 AND 85 8 1295; G2 AND 85 7 1296;
  G2 AND 85 6 1297; G2 AND 85 5 1298; G2 AND 85 4 1299; G2 AND 85 3 1300; G2 AND 85 2 1301; G2 AND 85 1 1302;
  G2 AND 85 0 1303; G2 AND 84 43 1217; G2 AND 84 42 1218; G2 AND 84 41 1219; G2 AND 84 40 1220;
  G2 AND 84 39 1221; G2 AND 84 38 1222; G2 AND 84 37 1223; G2 AND 84 36 1224; G2 AND 84 35 1225;
  G2 AND 84 34 1226; G2 AND 84 33 1227; G2 AND 84 32 1228; G2 AND 84 31 1229; G2 AND 84 30 1230;
  G2 AND 84 29 1231; G2 AND 84 28 1232; G2 AND 84 27 1233; G2 AND 84 26 1234; G2 AND 84 25 1235;
  G2 AND 84 24 1236; G2 AND 84 23 1237; G2 AND 84 22 1238; G2 AND 84 21 1239; G2 AND 84 20 1240;
  G2 AND 84 19 1241; G2 AND 84 18 1242; G2 AND 84 17 1243; G2 AND 84 16 1244; G2 AND 84 15 1245;
  G2 AND 84 14 1246; G2 AND 84 13 1247; G2 AND 84 12 1248; G2 AND 84 11 1249; G2 AND 84 10 1250;
  G2 AND 84 9 1251; G2 AND 84 8 1252; G2 AND 84 7 1253; G2 AND 84 6 1254; G2 AND 84 5 1255; G2 AND 84 4 1256;
  G2 AND 84 3 1257; G2 AND 84 2 1258; G2 AND 84 1 1259; G2 AND 84 0 1260; G2 AND 83 44 1172;
  G2 AND 83 43 1173; G2 AND 83 42 1174; G2 AND 83 41 1175; G2 AND 83 40 1176; G2 AND 83 39 1177;
  G2 AND 83 38 1178; G2 AND 83 37 1179; G2 AND 83 36 1180; G2 AND 83 35 1181; G2 AND 83 34 1182;
  G2 AND 83 33 1183; G2 AND 83 32 1184; G2 AND 83 31 1185; G2 AND 83 30 1186; G2 AND 83 29 1187;
  G2 AND 83 28 1188; G2 AND 83 27 1189; G2 AND 83 26 1190; G2 AND 83 25 1191; G2 AND 83 24 1192;
  G2 AND 83 23 1193; G2 AND 83 22 1194; G2 AND 83 21 1195; G2 AND 83 20 1196; G2 AND 83 19 1197;
  G2 AND 83 18 1198; G2 AND 83 17 1199; G2 AND 83 16 1200; G2 AND 83 15 1201; G2 AND 83 14 1202;
  G2 AND 83 13 1203; G2 AND 83 12 1204; G2 AND 83 11 1205; G2 AND 83 10 1206; G2 AND 83 9 1207;
  G2 AND 83 8 1208; G2 AND 83 7 1209; G2 AND 83 6 1210; G2 AND 83 5 1211; G2 AND 83 4 1212; G2 AND 83 3 1213;
  G2 AND 83 2 1214; G2 AND 83 1 1215; G2 AND 83 0 1216; G2 AND 82 45 1126; G2 AND 82 44 1127;
  G2 AND 82 43 1128; G2 AND 82 42 1129; G2 AND 82 41 1130; G2 AND 82 40 1131; G2 AND 82 39 1132;
  G2 AND 82 38 1133; G2 AND 82 37 1134; G2 AND 82 36 1135; G2 AND 82 35 1136; G2 AND 82 34 1137;
  G2 AND 82 33 1138; G2 AND 82 32 1139; G2 AND 82 31 1140; G2 AND 82 30 1141; G2 AND 82 29 1142;
  G2 AND 82 28 1143; G2 AND 82 27 1144; G2 AND 82 26 1145; G2 AND 82 25 1146; G2 AND 82 24 1147;
  G2 AND 82 23 1148; G2 AND 82 22 1149; G2 AND 82 21 1150; G2 AND 82 20 1151; G2 AND 82 19 1152;
  G2 AND 82 18 1153; G2 AND 82 17 1154; G2 AND 82 16 1155; G2 AND 82 15 1156; G2 AND 82 14 1157;
  G2 AND 82 13 1158; G2 AND 82 12 1159; G2 AND 82 11 1160; G2 AND 82 10 1161; G2 AND 82 9 1162;
  G2 AND 82 8 1163; G2 AND 82 7 1164; G2 AND 82 6 1165; G2 AND 82 5 1166; G2 AND 82 4 1167; G2 AND 82 3 1168;
  G2 AND 82 2 1169; G2 AND 82 1 1170; G2 AND 82 0 1171; G2 AND 81 46 1079; G2 AND 81 45 1080;
  G2 AND 81 44 1081; G2 AND 81 43 1082; G2 AND 81 42 1083; G2 AND 81 41 1084; G2 AND 81 40 1085;
  G2 AND 81 39 1086; G2 AND 81 38 1087; G2 AND 81 37 1088; G2 AND 81 36 1089; G2 AND 81 35 1090;
  G2 AND 81 34 1091; G2 AND 81 33 1092; G2 AND 81 32 1093; G2 AND 81 31 1094; G2 AND 81 30 1095;
  G2 AND 81 29 1096; G2 AND 81 28 1097; G2 AND 81 27 1098; G2 AND 81 26 1099; G2 AND 81 25 1100;
  G2 AND 81 24 1101; G2 AND 81 23 1102; G2 AND 81 22 1103; G2 AND 81 21 1104; G2 AND 81 20 1105;
  G2 AND 81 19 1106; G2 AND 81 18 1107; G2 AND 81 17 1108; G2 AND 81 16 1109; G2 AND 81 15 1110;
  G2 AND 81 14 1111; G2 AND 81 13 1112; G2 AND 81 12 1113; G2 AND 81 11 1114; G2 AND 81 10 1115;
  G2 AND 81 9 1116; G2 AND 81 8 1117; G2 AND 81 7 1118; G2 AND 81 6 1119; G2 AND 81 5 1120; G2 AND 81 4 1121;
  G2 AND 81 3 1122; G2 AND 81 2 1123; G2 AND 81 1 1124; G2 AND 81 0 1125; G2 AND 80 47 1031;
  G2 AND 80 46 1032; G2 AND 80 45 1033; G2 AND 80 44 1034; G2 AND 80 43 1035; G2 AND 80 42 1036;
  G2 AND 80 41 1037; G2 AND 80 40 1038; G2 AND 80 39 1039; G2 AND 80 38 1040; G2 AND 80 37 1041;
  G2 AND 80 36 1042; G2 AND 80 35 1043; G2 AND 80 34 1044; G2 AND 80 33 1045; G2 AND 80 32 1046;
  G2 AND 80 31 1047; G2 AND 80 30 1048; G2 AND 80 29 1049; G2 AND 80 28 1050; G2 AND 80 27 1051;
  G2 AND 80 26 1052; G2 AND 80 25 1053; G2 AND 80 24 1054; G2 AND 80 23 1055; G2 AND 80 22 1056;
  G2 AND 80 21 1057; G2 AND 80 20 1058; G2 AND 80 19 1059; G2 AND 80 18 1060; G2 AND 80 17 1061;
  G2 AND 80 16 1062; G2 AND 80 15 1063; G2 AND 80 14 1064; G2 AND 80 13 1065; G2 AND 80 12 1066;
  G2 AND 80 11 1067; G2 AND 80 10 1068; G2 AND 80 9 1069; G2 AND 80 8 1070; G2 AND 80 7 1071;
  G2 AND 80 6 1072; G2 AND 80 5 1073; G2 AND 80 4 1074; G2 AND 80 3 1075; G2 AND 80 2 1076; G2 AND 80 1 1077;
  G2 AND 80 0 1078; G2 AND 79 48 982; G2 AND 79 47 983; G2 AND 79 46 984; G2 AND 79 45 985; G2 AND 79 44 986;
  G2 AND 79 43 987; G2 AND 79 42 988; G2 AND 79 41 989; G2 AND 79 40 990; G2 AND 79 39 991; G2 AND 79 38 992;
  G2 AND 79 37 993; G2 AND 79 36 994; G2 AND 79 35 995; G2 AND 79 34 996; G2 AND 79 33 997; G2 AND 79 32 998;
  G2 AND 79 31 999; G2 AND 79 30 1000; G2 AND 79 29 1001; G2 AND 79 28 1002; G2 AND 79 27 1003;
  G2 AND 79 26 1004; G2 AND 79 25 1005; G2 AND 79 24 1006; G2 AND 79 23 1007; G2 AND 79 22 1008;
  G2 AND 79 21 1009; G2 AND 79 20 1010; G2 AND 79 19 1011; G2 AND 79 18 1012; G2 AND 79 17 1013;
  G2 AND 79 16 1014; G2 AND 79 15 1015; G2 AND 79 14 1016; G2 AND 79 13 1017; G2 AND 79 12 1018;
  G2 AND 79 11 1019; G2 AND 79 10 1020; G2 AND 79 9 1021; G2 AND 79 8 1022; G2 AND 79 7 1023;
  G2 AND 79 6 1024; G2 AND 79 5 1025; G2 AND 79 4 1026; G2 AND 79 3 1027; G2 AND 79 2 1028; G2 AND 79 1 1029;
  G2 AND 79 0 1030; G2 AND 78 49 932; G2 AND 78 48 933; G2 AND 78 47 934; G2 AND 78 46 935; G2 AND 78 45 936;
  G2 AND 78 44 937; G2 AND 78 43 938; G2 AND 78 42 939; G2 AND 78 41 940; G2 AND 78 40 941; G2 AND 78 39 942;
  G2 AND 78 38 943; G2 AND 78 37 944; G2 AND 78 36 945; G2 AND 78 35 946; G2 AND 78 34 947; G2 AND 78 33 948;
  G2 AND 78 32 949; G2 AND 78 31 950; G2 AND 78 30 951; G2 AND 78 29 952; G2 AND 78 28 953; G2 AND 78 27 954;
  G2 AND 78 26 955; G2 AND 78 25 956; G2 AND 78 24 957; G2 AND 78 23 958; G2 AND 78 22 959; G2 AND 78 21 960;
  G2 AND 78 20 961; G2 AND 78 19 962; G2 AND 78 18 963; G2 AND 78 17 964; G2 AND 78 16 965; G2 AND 78 15 966;
  G2 AND 78 14 967; G2 AND 78 13 968; G2 AND 78 12 969; G2 AND 78 11 970; G2 AND 78 10 971; G2 AND 78 9 972;
  G2 AND 78 8 973; G2 AND 78 7 974; G2 AND 78 6 975; G2 AND 78 5 976; G2 AND 78 4 977; G2 AND 78 3 978;
  G2 AND 78 2 979; G2 AND 78 1 980; G2 AND 78 0 981; G2 AND 77 50 881; G2 AND 77 49 882; G2 AND 77 48 883;
  G2 AND 77 47 884; G2 AND 77 46 885; G2 AND 77 45 886; G2 AND 77 44 887; G2 AND 77 43 888; G2 AND 77 42 889;
  G2 AND 77 41 890; G2 AND 77 40 891; G2 AND 77 39 892; G2 AND 77 38 893; G2 AND 77 37 894; G2 AND 77 36 895;
  G2 AND 77 35 896; G2 AND 77 34 897; G2 AND 77 33 898; G2 AND 77 32 899; G2 AND 77 31 900; G2 AND 77 30 901;
  G2 AND 77 29 902; G2 AND 77 28 903; G2 AND 77 27 904; G2 AND 77 26 905; G2 AND 77 25 906; G2 AND 77 24 907;
  G2 AND 77 23 908; G2 AND 77 22 909; G2 AND 77 21 910; G2 AND 77 20 911; G2 AND 77 19 912; G2 AND 77 18 913;
  G2 AND 77 17 914; G2 AND 77 16 915; G2 AND 77 15 916; G2 AND 77 14 917; G2 AND 77 13 918; G2 AND 77 12 919;
  G2 AND 77 11 920; G2 AND 77 10 921; G2 AND 77 9 922; G2 AND 77 8 923; G2 AND 77 7 924; G2 AND 77 6 925;
  G2 AND 77 5 926; G2 AND 77 4 927; G2 AND 77 3 928; G2 AND 77 2 929; G2 AND 77 1 930; G2 AND 77 0 931;
  G2 AND 76 51 829; G2 AND 76 50 830; G2 AND 76 49 831; G2 AND 76 48 832; G2 AND 76 47 833; G2 AND 76 46 834;
  G2 AND 76 45 835; G2 AND 76 44 836; G2 AND 76 43 837; G2 AND 76 42 838; G2 AND 76 41 839; G2 AND 76 40 840;
  G2 AND 76 39 841; G2 AND 76 38 842; G2 AND 76 37 843; G2 AND 76 36 844; G2 AND 76 35 845; G2 AND 76 34 846;
  G2 AND 76 33 847; G2 AND 76 32 848; G2 AND 76 31 849; G2 AND 76 30 850; G2 AND 76 29 851; G2 AND 76 28 852;
  G2 AND 76 27 853; G2 AND 76 26 854; G2 AND 76 25 855; G2 AND 76 24 856; G2 AND 76 23 857; G2 AND 76 22 858;
  G2 AND 76 21 859; G2 AND 76 20 860; G2 AND 76 19 861; G2 AND 76 18 862; G2 AND 76 17 863; G2 AND 76 16 864;
  G2 AND 76 15 865; G2 AND 76 14 866; G2 AND 76 13 867; G2 AND 76 12 868; G2 AND 76 11 869; G2 AND 76 10 870;
  G2 AND 76 9 871; G2 AND 76 8 872; G2 AND 76 7 873; G2 AND 76 6 874; G2 AND 76 5 875; G2 AND 76 4 876;
  G2 AND 76 3 877; G2 AND 76 2 878; G2 AND 76 1 879; G2 AND 76 0 880; G2 AND 75 52 776; G2 AND 75 51 777;
  G2 AND 75 50 778; G2 AND 75 49 779; G2 AND 75 48 780; G2 AND 75 47 781; G2 AND 75 46 782; G2 AND 75 45 783;
  G2 AND 75 44 784; G2 AND 75 43 785; G2 AND 75 42 786; G2 AND 75 41 787; G2 AND 75 40 788; G2 AND 75 39 789;
  G2 AND 75 38 790; G2 AND 75 37 791; G2 AND 75 36 792; G2 AND 75 35 793; G2 AND 75 34 794; G2 AND 75 33 795;
  G2 AND 75 32 796; G2 AND 75 31 797; G2 AND 75 30 798; G2 AND 75 29 799; G2 AND 75 28 800; G2 AND 75 27 801;
  G2 AND 75 26 802; G2 AND 75 25 803; G2 AND 75 24 804; G2 AND 75 23 805; G2 AND 75 22 806; G2 AND 75 21 807;
  G2 AND 75 20 808; G2 AND 75 19 809; G2 AND 75 18 810; G2 AND 75 17 811; G2 AND 75 16 812; G2 AND 75 15 813;
  G2 AND 75 14 814; G2 AND 75 13 815; G2 AND 75 12 816; G2 AND 75 11 817; G2 AND 75 10 818; G2 AND 75 9 819;
  G2 AND 75 8 820; G2 AND 75 7 821; G2 AND 75 6 822; G2 AND 75 5 823; G2 AND 75 4 824; G2 AND 75 3 825;
  G2 AND 75 2 826; G2 AND 75 1 827; G2 AND 75 0 828; G2 AND 74 53 722; G2 AND 74 52 723; G2 AND 74 51 724;
  G2 AND 74 50 725; G2 AND 74 49 726; G2 AND 74 48 727; G2 AND 74 47 728; G2 AND 74 46 729; G2 AND 74 45 730;
  G2 AND 74 44 731; G2 AND 74 43 732; G2 AND 74 42 733; G2 AND 74 41 734; G2 AND 74 40 735; G2 AND 74 39 736;
  G2 AND 74 38 737; G2 AND 74 37 738; G2 AND 74 36 739; G2 AND 74 35 740; G2 AND 74 34 741; G2 AND 74 33 742;
  G2 AND 74 32 743; G2 AND 74 31 744; G2 AND 74 30 745; G2 AND 74 29 746; G2 AND 74 28 747; G2 AND 74 27 748;
  G2 AND 74 26 749; G2 AND 74 25 750; G2 AND 74 24 751; G2 AND 74 23 752; G2 AND 74 22 753; G2 AND 74 21 754;
  G2 AND 74 20 755; G2 AND 74 19 756; G2 AND 74 18 757; G2 AND 74 17 758; G2 AND 74 16 759; G2 AND 74 15 760;
  G2 AND 74 14 761; G2 AND 74 13 762; G2 AND 74 12 763; G2 AND 74 11 764; G2 AND 74 10 765; G2 AND 74 9 766;
  G2 AND 74 8 767; G2 AND 74 7 768; G2 AND 74 6 769; G2 AND 74 5 770; G2 AND 74 4 771; G2 AND 74 3 772;
  G2 AND 74 2 773; G2 AND 74 1 774; G2 AND 74 0 775; G2 AND 73 54 667; G2 AND 73 53 668; G2 AND 73 52 669;
  G2 AND 73 51 670; G2 AND 73 50 671; G2 AND 73 49 672; G2 AND 73 48 673; G2 AND 73 47 674; G2 AND 73 46 675;
  G2 AND 73 45 676; G2 AND 73 44 677; G2 AND 73 43 678; G2 AND 73 42 679; G2 AND 73 41 680; G2 AND 73 40 681;
  G2 AND 73 39 682; G2 AND 73 38 683; G2 AND 73 37 684; G2 AND 73 36 685; G2 AND 73 35 686; G2 AND 73 34 687;
  G2 AND 73 33 688; G2 AND 73 32 689; G2 AND 73 31 690; G2 AND 73 30 691; G2 AND 73 29 692; G2 AND 73 28 693;
  G2 AND 73 27 694; G2 AND 73 26 695; G2 AND 73 25 696; G2 AND 73 24 697; G2 AND 73 23 698; G2 AND 73 22 699;
  G2 AND 73 21 700; G2 AND 73 20 701; G2 AND 73 19 702; G2 AND 73 18 703; G2 AND 73 17 704; G2 AND 73 16 705;
  G2 AND 73 15 706; G2 AND 73 14 707; G2 AND 73 13 708; G2 AND 73 12 709; G2 AND 73 11 710; G2 AND 73 10 711;
  G2 AND 73 9 712; G2 AND 73 8 713; G2 AND 73 7 714; G2 AND 73 6 715; G2 AND 73 5 716; G2 AND 73 4 717;
  G2 AND 73 3 718; G2 AND 73 2 719; G2 AND 73 1 720; G2 AND 73 0 721; G2 AND 72 55 611; G2 AND 72 54 612;
  G2 AND 72 53 613; G2 AND 72 52 614; G2 AND 72 51 615; G2 AND 72 50 616; G2 AND 72 49 617; G2 AND 72 48 618;
  G2 AND 72 47 619; G2 AND 72 46 620; G2 AND 72 45 621; G2 AND 72 44 622; G2 AND 72 43 623; G2 AND 72 42 624;
  G2 AND 72 41 625; G2 AND 72 40 626; G2 AND 72 39 627; G2 AND 72 38 628; G2 AND 72 37 629; G2 AND 72 36 630;
  G2 AND 72 35 631; G2 AND 72 34 632; G2 AND 72 33 633; G2 AND 72 32 634; G2 AND 72 31 635; G2 AND 72 30 636;
  G2 AND 72 29 637; G2 AND 72 28 638; G2 AND 72 27 639; G2 AND 72 26 640; G2 AND 72 25 641; G2 AND 72 24 642;
  G2 AND 72 23 643; G2 AND 72 22 644; G2 AND 72 21 645; G2 AND 72 20 646; G2 AND 72 19 647; G2 AND 72 18 648;
  G2 AND 72 17 649; G2 AND 72 16 650; G2 AND 72 15 651; G2 AND 72 14 652; G2 AND 72 13 653; G2 AND 72 12 654;
  G2 AND 72 11 655; G2 AND 72 10 656; G2 AND 72 9 657; G2 AND 72 8 658; G2 AND 72 7 659; G2 AND 72 6 660;
  G2 AND 72 5 661; G2 AND 72 4 662; G2 AND 72 3 663; G2 AND 72 2 664; G2 AND 72 1 665; G2 AND 72 0 666;
  G2 AND 71 56 554; G2 AND 71 55 555; G2 AND 71 54 556; G2 AND 71 53 557; G2 AND 71 52 558; G2 AND 71 51 559;
  G2 AND 71 50 560; G2 AND 71 49 561; G2 AND 71 48 562; G2 AND 71 47 563; G2 AND 71 46 564; G2 AND 71 45 565;
  G2 AND 71 44 566; G2 AND 71 43 567; G2 AND 71 42 568; G2 AND 71 41 569; G2 AND 71 40 570; G2 AND 71 39 571;
  G2 AND 71 38 572; G2 AND 71 37 573; G2 AND 71 36 574; G2 AND 71 35 575; G2 AND 71 34 576; G2 AND 71 33 577;
  G2 AND 71 32 578; G2 AND 71 31 579; G2 AND 71 30 580; G2 AND 71 29 581; G2 AND 71 28 582; G2 AND 71 27 583;
  G2 AND 71 26 584; G2 AND 71 25 585; G2 AND 71 24 586; G2 AND 71 23 587; G2 AND 71 22 588; G2 AND 71 21 589;
  G2 AND 71 20 590; G2 AND 71 19 591; G2 AND 71 18 592; G2 AND 71 17 593; G2 AND 71 16 594; G2 AND 71 15 595;
  G2 AND 71 14 596; G2 AND 71 13 597; G2 AND 71 12 598; G2 AND 71 11 599; G2 AND 71 10 600; G2 AND 71 9 601;
  G2 AND 71 8 602; G2 AND 71 7 603; G2 AND 71 6 604; G2 AND 71 5 605; G2 AND 71 4 606; G2 AND 71 3 607;
  G2 AND 71 2 608; G2 AND 71 1 609; G2 AND 71 0 610; G2 AND 70 57 496; G2 AND 70 56 497; G2 AND 70 55 498;
  G2 AND 70 54 499; G2 AND 70 53 500; G2 AND 70 52 501; G2 AND 70 51 502; G2 AND 70 50 503; G2 AND 70 49 504;
  G2 AND 70 48 505; G2 AND 70 47 506; G2 AND 70 46 507; G2 AND 70 45 508; G2 AND 70 44 509; G2 AND 70 43 510;
  G2 AND 70 42 511; G2 AND 70 41 512; G2 AND 70 40 513; G2 AND 70 39 514; G2 AND 70 38 515; G2 AND 70 37 516;
  G2 AND 70 36 517; G2 AND 70 35 518; G2 AND 70 34 519; G2 AND 70 33 520; G2 AND 70 32 521; G2 AND 70 31 522;
  G2 AND 70 30 523; G2 AND 70 29 524; G2 AND 70 28 525; G2 AND 70 27 526; G2 AND 70 26 527; G2 AND 70 25 528;
  G2 AND 70 24 529; G2 AND 70 23 530; G2 AND 70 22 531; G2 AND 70 21 532; G2 AND 70 20 533; G2 AND 70 19 534;
  G2 AND 70 18 535; G2 AND 70 17 536; G2 AND 70 16 537; G2 AND 70 15 538; G2 AND 70 14 539; G2 AND 70 13 540;
  G2 AND 70 12 541; G2 AND 70 11 542; G2 AND 70 10 543; G2 AND 70 9 544; G2 AND 70 8 545; G2 AND 70 7 546;
  G2 AND 70 6 547; G2 AND 70 5 548; G2 AND 70 4 549; G2 AND 70 3 550; G2 AND 70 2 551; G2 AND 70 1 552;
  G2 AND 70 0 553; G2 AND 69 58 437; G2 AND 69 57 438; G2 AND 69 56 439; G2 AND 69 55 440; G2 AND 69 54 441;
  G2 AND 69 53 442; G2 AND 69 52 443; G2 AND 69 51 444; G2 AND 69 50 445; G2 AND 69 49 446; G2 AND 69 48 447;
  G2 AND 69 47 448; G2 AND 69 46 449; G2 AND 69 45 450; G2 AND 69 44 451; G2 AND 69 43 452; G2 AND 69 42 453;
  G2 AND 69 41 454; G2 AND 69 40 455; G2 AND 69 39 456; G2 AND 69 38 457; G2 AND 69 37 458; G2 AND 69 36 459;
  G2 AND 69 35 460; G2 AND 69 34 461; G2 AND 69 33 462; G2 AND 69 32 463; G2 AND 69 31 464; G2 AND 69 30 465;
  G2 AND 69 29 466; G2 AND 69 28 467; G2 AND 69 27 468; G2 AND 69 26 469; G2 AND 69 25 470; G2 AND 69 24 471;
  G2 AND 69 23 472; G2 AND 69 22 473; G2 AND 69 21 474; G2 AND 69 20 475; G2 AND 69 19 476; G2 AND 69 18 477;
  G2 AND 69 17 478; G2 AND 69 16 479; G2 AND 69 15 480; G2 AND 69 14 481; G2 AND 69 13 482; G2 AND 69 12 483;
  G2 AND 69 11 484; G2 AND 69 10 485; G2 AND 69 9 486; G2 AND 69 8 487; G2 AND 69 7 488; G2 AND 69 6 489;
  G2 AND 69 5 490; G2 AND 69 4 491; G2 AND 69 3 492; G2 AND 69 2 493; G2 AND 69 1 494; G2 AND 69 0 495;
  G2 AND 68 59 377; G2 AND 68 58 378; G2 AND 68 57 379; G2 AND 68 56 380; G2 AND 68 55 381; G2 AND 68 54 382;
  G2 AND 68 53 383; G2 AND 68 52 384; G2 AND 68 51 385; G2 AND 68 50 386; G2 AND 68 49 387; G2 AND 68 48 388;
  G2 AND 68 47 389; G2 AND 68 46 390; G2 AND 68 45 391; G2 AND 68 44 392; G2 AND 68 43 393; G2 AND 68 42 394;
  G2 AND 68 41 395; G2 AND 68 40 396; G2 AND 68 39 397; G2 AND 68 38 398; G2 AND 68 37 399; G2 AND 68 36 400;
  G2 AND 68 35 401; G2 AND 68 34 402; G2 AND 68 33 403; G2 AND 68 32 404; G2 AND 68 31 405; G2 AND 68 30 406;
  G2 AND 68 29 407; G2 AND 68 28 408; G2 AND 68 27 409; G2 AND 68 26 410; G2 AND 68 25 411; G2 AND 68 24 412;
  G2 AND 68 23 413; G2 AND 68 22 414; G2 AND 68 21 415; G2 AND 68 20 416; G2 AND 68 19 417; G2 AND 68 18 418;
  G2 AND 68 17 419; G2 AND 68 16 420; G2 AND 68 15 421; G2 AND 68 14 422; G2 AND 68 13 423; G2 AND 68 12 424;
  G2 AND 68 11 425; G2 AND 68 10 426; G2 AND 68 9 427; G2 AND 68 8 428; G2 AND 68 7 429; G2 AND 68 6 430;
  G2 AND 68 5 431; G2 AND 68 4 432; G2 AND 68 3 433; G2 AND 68 2 434; G2 AND 68 1 435; G2 AND 68 0 436;
  G2 AND 67 60 316; G2 AND 67 59 317; G2 AND 67 58 318; G2 AND 67 57 319; G2 AND 67 56 320; G2 AND 67 55 321;
  G2 AND 67 54 322; G2 AND 67 53 323; G2 AND 67 52 324; G2 AND 67 51 325; G2 AND 67 50 326; G2 AND 67 49 327;
  G2 AND 67 48 328; G2 AND 67 47 329; G2 AND 67 46 330; G2 AND 67 45 331; G2 AND 67 44 332; G2 AND 67 43 333;
  G2 AND 67 42 334; G2 AND 67 41 335; G2 AND 67 40 336; G2 AND 67 39 337; G2 AND 67 38 338; G2 AND 67 37 339;
  G2 AND 67 36 340; G2 AND 67 35 341; G2 AND 67 34 342; G2 AND 67 33 343; G2 AND 67 32 344; G2 AND 67 31 345;
  G2 AND 67 30 346; G2 AND 67 29 347; G2 AND 67 28 348; G2 AND 67 27 349; G2 AND 67 26 350; G2 AND 67 25 351;
  G2 AND 67 24 352; G2 AND 67 23 353; G2 AND 67 22 354; G2 AND 67 21 355; G2 AND 67 20 356; G2 AND 67 19 357;
  G2 AND 67 18 358; G2 AND 67 17 359; G2 AND 67 16 360; G2 AND 67 15 361; G2 AND 67 14 362; G2 AND 67 13 363;
  G2 AND 67 12 364; G2 AND 67 11 365; G2 AND 67 10 366; G2 AND 67 9 367; G2 AND 67 8 368; G2 AND 67 7 369;
  G2 AND 67 6 370; G2 AND 67 5 371; G2 AND 67 4 372; G2 AND 67 3 373; G2 AND 67 2 374; G2 AND 67 1 375;
  G2 AND 67 0 376; G2 AND 66 61 254; G2 AND 66 60 255; G2 AND 66 59 256; G2 AND 66 58 257; G2 AND 66 57 258;
  G2 AND 66 56 259; G2 AND 66 55 260; G2 AND 66 54 261; G2 AND 66 53 262; G2 AND 66 52 263; G2 AND 66 51 264;
  G2 AND 66 50 265; G2 AND 66 49 266; G2 AND 66 48 267; G2 AND 66 47 268; G2 AND 66 46 269; G2 AND 66 45 270;
  G2 AND 66 44 271; G2 AND 66 43 272; G2 AND 66 42 273; G2 AND 66 41 274; G2 AND 66 40 275; G2 AND 66 39 276;
  G2 AND 66 38 277; G2 AND 66 37 278; G2 AND 66 36 279; G2 AND 66 35 280; G2 AND 66 34 281; G2 AND 66 33 282;
  G2 AND 66 32 283; G2 AND 66 31 284; G2 AND 66 30 285; G2 AND 66 29 286; G2 AND 66 28 287; G2 AND 66 27 288;
  G2 AND 66 26 289; G2 AND 66 25 290; G2 AND 66 24 291; G2 AND 66 23 292; G2 AND 66 22 293; G2 AND 66 21 294;
  G2 AND 66 20 295; G2 AND 66 19 296; G2 AND 66 18 297; G2 AND 66 17 298; G2 AND 66 16 299; G2 AND 66 15 300;
  G2 AND 66 14 301; G2 AND 66 13 302; G2 AND 66 12 303; G2 AND 66 11 304; G2 AND 66 10 305; G2 AND 66 9 306;
  G2 AND 66 8 307; G2 AND 66 7 308; G2 AND 66 6 309; G2 AND 66 5 310; G2 AND 66 4 311; G2 AND 66 3 312;
  G2 AND 66 2 313; G2 AND 66 1 314; G2 AND 66 0 315; G2 AND 65 62 191; G2 AND 65 61 192; G2 AND 65 60 193;
  G2 AND 65 59 194; G2 AND 65 58 195; G2 AND 65 57 196; G2 AND 65 56 197; G2 AND 65 55 198; G2 AND 65 54 199;
  G2 AND 65 53 200; G2 AND 65 52 201; G2 AND 65 51 202; G2 AND 65 50 203; G2 AND 65 49 204; G2 AND 65 48 205;
  G2 AND 65 47 206; G2 AND 65 46 207; G2 AND 65 45 208; G2 AND 65 44 209; G2 AND 65 43 210; G2 AND 65 42 211;
  G2 AND 65 41 212; G2 AND 65 40 213; G2 AND 65 39 214; G2 AND 65 38 215; G2 AND 65 37 216; G2 AND 65 36 217;
  G2 AND 65 35 218; G2 AND 65 34 219; G2 AND 65 33 220; G2 AND 65 32 221; G2 AND 65 31 222; G2 AND 65 30 223;
  G2 AND 65 29 224; G2 AND 65 28 225; G2 AND 65 27 226; G2 AND 65 26 227; G2 AND 65 25 228; G2 AND 65 24 229;
  G2 AND 65 23 230; G2 AND 65 22 231; G2 AND 65 21 232; G2 AND 65 20 233; G2 AND 65 19 234; G2 AND 65 18 235;
  G2 AND 65 17 236; G2 AND 65 16 237; G2 AND 65 15 238; G2 AND 65 14 239; G2 AND 65 13 240; G2 AND 65 12 241;
  G2 AND 65 11 242; G2 AND 65 10 243; G2 AND 65 9 244; G2 AND 65 8 245; G2 AND 65 7 246; G2 AND 65 6 247;
  G2 AND 65 5 248; G2 AND 65 4 249; G2 AND 65 3 250; G2 AND 65 2 251; G2 AND 65 1 252; G2 AND 65 0 253;
  G2 AND 64 63 128; G2 XOR 191 128 13498; G2 AND 64 62 129; G2 XOR 192 129 13502; G2 AND 64 61 130;
  G2 XOR 193 130 13506; G2 AND 64 60 131; G2 XOR 194 131 13510; G2 AND 64 59 132; G2 XOR 195 132 13514;
  G2 AND 64 58 133; G2 XOR 196 133 13518; G2 AND 64 57 134; G2 XOR 197 134 13522; G2 AND 64 56 135;
  G2 XOR 198 135 13526; G2 AND 64 55 136; G2 XOR 199 136 13530; G2 AND 64 54 137; G2 XOR 200 137 13534;
  G2 AND 64 53 138; G2 XOR 201 138 13538; G2 AND 64 52 139; G2 XOR 202 139 13542; G2 AND 64 51 140;
  G2 XOR 203 140 13546; G2 AND 64 50 141; G2 XOR 204 141 13550; G2 AND 64 49 142; G2 XOR 205 142 13554;
  G2 AND 64 48 143; G2 XOR 206 143 13558; G2 AND 64 47 144; G2 XOR 207 144 13562; G2 AND 64 46 145;
  G2 XOR 208 145 13566; G2 AND 64 45 146; G2 XOR 209 146 13570; G2 AND 64 44 147; G2 XOR 210 147 13574;
  G2 AND 64 43 148; G2 XOR 211 148 13578; G2 AND 64 42 149; G2 XOR 212 149 13582; G2 AND 64 41 150;
  G2 XOR 213 150 13586; G2 AND 64 40 151; G2 XOR 214 151 13590; G2 AND 64 39 152; G2 XOR 215 152 13594;
  G2 AND 64 38 153; G2 XOR 216 153 13598; G2 AND 64 37 154; G2 XOR 217 154 13602; G2 AND 64 36 155;
  G2 XOR 218 155 13606; G2 AND 64 35 156; G2 XOR 219 156 13610; G2 AND 64 34 157; G2 XOR 220 157 13614;
  G2 AND 64 33 158; G2 XOR 221 158 13618; G2 AND 64 32 159; G2 XOR 222 159 13622; G2 AND 64 31 160;
  G2 XOR 223 160 13626; G2 AND 64 30 161; G2 XOR 224 161 13630; G2 AND 64 29 162; G2 XOR 225 162 13634;
  G2 AND 64 28 163; G2 XOR 226 163 13638; G2 AND 64 27 164; G2 XOR 227 164 13642; G2 AND 64 26 165;
  G2 XOR 228 165 13646; G2 AND 64 25 166; G2 XOR 229 166 13650; G2 AND 64 24 167; G2 XOR 230 167 13654;
  G2 AND 64 23 168; G2 XOR 231 168 13658; G2 AND 64 22 169; G2 XOR 232 169 13662; G2 AND 64 21 170;
  G2 XOR 233 170 13666; G2 AND 64 20 171; G2 XOR 234 171 13670; G2 AND 64 19 172; G2 XOR 235 172 13674;
  G2 AND 64 18 173; G2 XOR 236 173 13678; G2 AND 64 17 174; G2 XOR 237 174 13682; G2 AND 64 16 175;
  G2 XOR 238 175 13686; G2 AND 64 15 176; G2 XOR 239 176 13690; G2 AND 64 14 177; G2 XOR 240 177 13694;
  G2 AND 64 13 178; G2 XOR 241 178 13698; G2 AND 64 12 179; G2 XOR 242 179 13702; G2 AND 64 11 180;
  G2 XOR 243 180 13706; G2 AND 64 10 181; G2 XOR 244 181 13710; G2 AND 64 9 182; G2 XOR 245 182 13714;
  G2 AND 64 8 183; G2 XOR 246 183 13718; G2 AND 64 7 184; G2 XOR 247 184 13722; G2 AND 64 6 185;
  G2 XOR 248 185 13726; G2 AND 64 5 186; G2 XOR 249 186 13730; G2 AND 64 4 187; G2 XOR 250 187 13734;
  G2 AND 64 3 188; G2 XOR 251 188 13738; G2 AND 64 2 189; G2 XOR 252 189 6116; G2 AND 64 1 190;
  G2 XOR 253 190 13740; G2 AND 253 190 2268; G2 XOR 6116 2268 2736; G2 XOR 315 2736 13741;
  G2 AND 315 2736 2329; G2 XOR 252 2268 6115; G2 XOR 189 2268 6114; G2 AND 6115 6114 6113;
  G2 XOR 6113 2268 2267; G2 XOR 13738 2267 2735; G2 XOR 251 2267 13737; G2 XOR 188 2267 13736;
  G2 AND 13737 13736 13735; G2 XOR 13735 2267 2266; G2 XOR 13734 2266 2734; G2 XOR 250 2266 13733;
  G2 XOR 187 2266 13732; G2 AND 13733 13732 13731; G2 XOR 13731 2266 2265; G2 XOR 13730 2265 2733;
  G2 XOR 249 2265 13729; G2 XOR 186 2265 13728; G2 AND 13729 13728 13727; G2 XOR 13727 2265 2264;
  G2 XOR 13726 2264 2732; G2 XOR 248 2264 13725; G2 XOR 185 2264 13724; G2 AND 13725 13724 13723;
  G2 XOR 13723 2264 2263; G2 XOR 13722 2263 2731; G2 XOR 247 2263 13721; G2 XOR 184 2263 13720;
  G2 AND 13721 13720 13719; G2 XOR 13719 2263 2262; G2 XOR 13718 2262 2730; G2 XOR 246 2262 13717;
  G2 XOR 183 2262 13716; G2 AND 13717 13716 13715; G2 XOR 13715 2262 2261; G2 XOR 13714 2261 2729;
  G2 XOR 245 2261 13713; G2 XOR 182 2261 13712; G2 AND 13713 13712 13711; G2 XOR 13711 2261 2260;
  G2 XOR 13710 2260 2728; G2 XOR 244 2260 13709; G2 XOR 181 2260 13708; G2 AND 13709 13708 13707;
  G2 XOR 13707 2260 2259; G2 XOR 13706 2259 2727; G2 XOR 243 2259 13705; G2 XOR 180 2259 13704;
  G2 AND 13705 13704 13703; G2 XOR 13703 2259 2258; G2 XOR 13702 2258 2726; G2 XOR 242 2258 13701;
  G2 XOR 179 2258 13700; G2 AND 13701 13700 13699; G2 XOR 13699 2258 2257; G2 XOR 13698 2257 2725;
  G2 XOR 241 2257 13697; G2 XOR 178 2257 13696; G2 AND 13697 13696 13695; G2 XOR 13695 2257 2256;
  G2 XOR 13694 2256 2724; G2 XOR 240 2256 13693; G2 XOR 177 2256 13692; G2 AND 13693 13692 13691;
  G2 XOR 13691 2256 2255; G2 XOR 13690 2255 2723; G2 XOR 239 2255 13689; G2 XOR 176 2255 13688;
  G2 AND 13689 13688 13687; G2 XOR 13687 2255 2254; G2 XOR 13686 2254 2722; G2 XOR 238 2254 13685;
  G2 XOR 175 2254 13684; G2 AND 13685 13684 13683; G2 XOR 13683 2254 2253; G2 XOR 13682 2253 2721;
  G2 XOR 237 2253 13681; G2 XOR 174 2253 13680; G2 AND 13681 13680 13679; G2 XOR 13679 2253 2252;
  G2 XOR 13678 2252 2720; G2 XOR 236 2252 13677; G2 XOR 173 2252 13676; G2 AND 13677 13676 13675;
  G2 XOR 13675 2252 2251; G2 XOR 13674 2251 2719; G2 XOR 235 2251 13673; G2 XOR 172 2251 13672;
  G2 AND 13673 13672 13671; G2 XOR 13671 2251 2250; G2 XOR 13670 2250 2718; G2 XOR 234 2250 13669;
  G2 XOR 171 2250 13668; G2 AND 13669 13668 13667; G2 XOR 13667 2250 2249; G2 XOR 13666 2249 2717;
  G2 XOR 233 2249 13665; G2 XOR 170 2249 13664; G2 AND 13665 13664 13663; G2 XOR 13663 2249 2248;
  G2 XOR 13662 2248 2716; G2 XOR 232 2248 13661; G2 XOR 169 2248 13660; G2 AND 13661 13660 13659;
  G2 XOR 13659 2248 2247; G2 XOR 13658 2247 2715; G2 XOR 231 2247 13657; G2 XOR 168 2247 13656;
  G2 AND 13657 13656 13655; G2 XOR 13655 2247 2246; G2 XOR 13654 2246 2714; G2 XOR 230 2246 13653;
  G2 XOR 167 2246 13652; G2 AND 13653 13652 13651; G2 XOR 13651 2246 2245; G2 XOR 13650 2245 2713;
  G2 XOR 229 2245 13649; G2 XOR 166 2245 13648; G2 AND 13649 13648 13647; G2 XOR 13647 2245 2244;
  G2 XOR 13646 2244 2712; G2 XOR 228 2244 13645; G2 XOR 165 2244 13644; G2 AND 13645 13644 13643;
  G2 XOR 13643 2244 2243; G2 XOR 13642 2243 2711; G2 XOR 227 2243 13641; G2 XOR 164 2243 13640;
  G2 AND 13641 13640 13639; G2 XOR 13639 2243 2242; G2 XOR 13638 2242 2710; G2 XOR 226 2242 13637;
  G2 XOR 163 2242 13636; G2 AND 13637 13636 13635; G2 XOR 13635 2242 2241; G2 XOR 13634 2241 2709;
  G2 XOR 225 2241 13633; G2 XOR 162 2241 13632; G2 AND 13633 13632 13631; G2 XOR 13631 2241 2240;
  G2 XOR 13630 2240 2708; G2 XOR 224 2240 13629; G2 XOR 161 2240 13628; G2 AND 13629 13628 13627;
  G2 XOR 13627 2240 2239; G2 XOR 13626 2239 2707; G2 XOR 223 2239 13625; G2 XOR 160 2239 13624;
  G2 AND 13625 13624 13623; G2 XOR 13623 2239 2238; G2 XOR 13622 2238 2706; G2 XOR 222 2238 13621;
  G2 XOR 159 2238 13620; G2 AND 13621 13620 13619; G2 XOR 13619 2238 2237; G2 XOR 13618 2237 2705;
  G2 XOR 221 2237 13617; G2 XOR 158 2237 13616; G2 AND 13617 13616 13615; G2 XOR 13615 2237 2236;
  G2 XOR 13614 2236 2704; G2 XOR 220 2236 13613; G2 XOR 157 2236 13612; G2 AND 13613 13612 13611;
  G2 XOR 13611 2236 2235; G2 XOR 13610 2235 2703; G2 XOR 219 2235 13609; G2 XOR 156 2235 13608;
  G2 AND 13609 13608 13607; G2 XOR 13607 2235 2234; G2 XOR 13606 2234 2702; G2 XOR 218 2234 13605;
  G2 XOR 155 2234 13604; G2 AND 13605 13604 13603; G2 XOR 13603 2234 2233; G2 XOR 13602 2233 2701;
  G2 XOR 217 2233 13601; G2 XOR 154 2233 13600; G2 AND 13601 13600 13599; G2 XOR 13599 2233 2232;
  G2 XOR 13598 2232 2700; G2 XOR 216 2232 13597; G2 XOR 153 2232 13596; G2 AND 13597 13596 13595;
  G2 XOR 13595 2232 2231; G2 XOR 13594 2231 2699; G2 XOR 215 2231 13593; G2 XOR 152 2231 13592;
  G2 AND 13593 13592 13591; G2 XOR 13591 2231 2230; G2 XOR 13590 2230 2698; G2 XOR 214 2230 13589;
  G2 XOR 151 2230 13588; G2 AND 13589 13588 13587; G2 XOR 13587 2230 2229; G2 XOR 13586 2229 2697;
  G2 XOR 213 2229 13585; G2 XOR 150 2229 13584; G2 AND 13585 13584 13583; G2 XOR 13583 2229 2228;
  G2 XOR 13582 2228 2696; G2 XOR 212 2228 13581; G2 XOR 149 2228 13580; G2 AND 13581 13580 13579;
  G2 XOR 13579 2228 2227; G2 XOR 13578 2227 2695; G2 XOR 211 2227 13577; G2 XOR 148 2227 13576;
  G2 AND 13577 13576 13575; G2 XOR 13575 2227 2226; G2 XOR 13574 2226 2694; G2 XOR 210 2226 13573;
  G2 XOR 147 2226 13572; G2 AND 13573 13572 13571; G2 XOR 13571 2226 2225; G2 XOR 13570 2225 2693;
  G2 XOR 209 2225 13569; G2 XOR 146 2225 13568; G2 AND 13569 13568 13567; G2 XOR 13567 2225 2224;
  G2 XOR 13566 2224 2692; G2 XOR 208 2224 13565; G2 XOR 145 2224 13564; G2 AND 13565 13564 13563;
  G2 XOR 13563 2224 2223; G2 XOR 13562 2223 2691; G2 XOR 207 2223 13561; G2 XOR 144 2223 13560;
  G2 AND 13561 13560 13559; G2 XOR 13559 2223 2222; G2 XOR 13558 2222 2690; G2 XOR 206 2222 13557;
  G2 XOR 143 2222 13556; G2 AND 13557 13556 13555; G2 XOR 13555 2222 2221; G2 XOR 13554 2221 2689;
  G2 XOR 205 2221 13553; G2 XOR 142 2221 13552; G2 AND 13553 13552 13551; G2 XOR 13551 2221 2220;
  G2 XOR 13550 2220 2688; G2 XOR 204 2220 13549; G2 XOR 141 2220 13548; G2 AND 13549 13548 13547;
  G2 XOR 13547 2220 2219; G2 XOR 13546 2219 2687; G2 XOR 203 2219 13545; G2 XOR 140 2219 13544;
  G2 AND 13545 13544 13543; G2 XOR 13543 2219 2218; G2 XOR 13542 2218 2686; G2 XOR 202 2218 13541;
  G2 XOR 139 2218 13540; G2 AND 13541 13540 13539; G2 XOR 13539 2218 2217; G2 XOR 13538 2217 2685;
  G2 XOR 201 2217 13537; G2 XOR 138 2217 13536; G2 AND 13537 13536 13535; G2 XOR 13535 2217 2216;
  G2 XOR 13534 2216 2684; G2 XOR 200 2216 13533; G2 XOR 137 2216 13532; G2 AND 13533 13532 13531;
  G2 XOR 13531 2216 2215; G2 XOR 13530 2215 2683; G2 XOR 199 2215 13529; G2 XOR 136 2215 13528;
  G2 AND 13529 13528 13527; G2 XOR 13527 2215 2214; G2 XOR 13526 2214 2682; G2 XOR 198 2214 13525;
  G2 XOR 135 2214 13524; G2 AND 13525 13524 13523; G2 XOR 13523 2214 2213; G2 XOR 13522 2213 2681;
  G2 XOR 197 2213 13521; G2 XOR 134 2213 13520; G2 AND 13521 13520 13519; G2 XOR 13519 2213 2212;
  G2 XOR 13518 2212 2680; G2 XOR 196 2212 13517; G2 XOR 133 2212 13516; G2 AND 13517 13516 13515;
  G2 XOR 13515 2212 2211; G2 XOR 13514 2211 2679; G2 XOR 195 2211 13513; G2 XOR 132 2211 13512;
  G2 AND 13513 13512 13511; G2 XOR 13511 2211 2210; G2 XOR 13510 2210 2678; G2 XOR 194 2210 13509;
  G2 XOR 131 2210 13508; G2 AND 13509 13508 13507; G2 XOR 13507 2210 2209; G2 XOR 13506 2209 2677;
  G2 XOR 193 2209 13505; G2 XOR 130 2209 13504; G2 AND 13505 13504 13503; G2 XOR 13503 2209 2208;
  G2 XOR 13502 2208 2676; G2 XOR 192 2208 13501; G2 XOR 129 2208 13500; G2 AND 13501 13500 13499;
  G2 XOR 13499 2208 2207; G2 XOR 13498 2207 2675; G2 XOR 314 2735 13497; G2 XOR 13497 2329 2797;
  G2 XOR 376 2797 13742; G2 AND 376 2797 2389; G2 XOR 314 2329 13496; G2 XOR 2735 2329 13495;
  G2 AND 13496 13495 13494; G2 XOR 13494 2329 2328; G2 XOR 313 2734 13493; G2 XOR 13493 2328 2796;
  G2 XOR 313 2328 13492; G2 XOR 2734 2328 13491; G2 AND 13492 13491 13490; G2 XOR 13490 2328 2327;
  G2 XOR 312 2733 13489; G2 XOR 13489 2327 2795; G2 XOR 312 2327 13488; G2 XOR 2733 2327 13487;
  G2 AND 13488 13487 13486; G2 XOR 13486 2327 2326; G2 XOR 311 2732 13485; G2 XOR 13485 2326 2794;
  G2 XOR 311 2326 13484; G2 XOR 2732 2326 13483; G2 AND 13484 13483 13482; G2 XOR 13482 2326 2325;
  G2 XOR 310 2731 13481; G2 XOR 13481 2325 2793; G2 XOR 310 2325 13480; G2 XOR 2731 2325 13479;
  G2 AND 13480 13479 13478; G2 XOR 13478 2325 2324; G2 XOR 309 2730 13477; G2 XOR 13477 2324 2792;
  G2 XOR 309 2324 13476; G2 XOR 2730 2324 13475; G2 AND 13476 13475 13474; G2 XOR 13474 2324 2323;
  G2 XOR 308 2729 13473; G2 XOR 13473 2323 2791; G2 XOR 308 2323 13472; G2 XOR 2729 2323 13471;
  G2 AND 13472 13471 13470; G2 XOR 13470 2323 2322; G2 XOR 307 2728 13469; G2 XOR 13469 2322 2790;
  G2 XOR 307 2322 13468; G2 XOR 2728 2322 13467; G2 AND 13468 13467 13466; G2 XOR 13466 2322 2321;
  G2 XOR 306 2727 13465; G2 XOR 13465 2321 2789; G2 XOR 306 2321 13464; G2 XOR 2727 2321 13463;
  G2 AND 13464 13463 13462; G2 XOR 13462 2321 2320; G2 XOR 305 2726 13461; G2 XOR 13461 2320 2788;
  G2 XOR 305 2320 13460; G2 XOR 2726 2320 13459; G2 AND 13460 13459 13458; G2 XOR 13458 2320 2319;
  G2 XOR 304 2725 13457; G2 XOR 13457 2319 2787; G2 XOR 304 2319 13456; G2 XOR 2725 2319 13455;
  G2 AND 13456 13455 13454; G2 XOR 13454 2319 2318; G2 XOR 303 2724 13453; G2 XOR 13453 2318 2786;
  G2 XOR 303 2318 13452; G2 XOR 2724 2318 13451; G2 AND 13452 13451 13450; G2 XOR 13450 2318 2317;
  G2 XOR 302 2723 13449; G2 XOR 13449 2317 2785; G2 XOR 302 2317 13448; G2 XOR 2723 2317 13447;
  G2 AND 13448 13447 13446; G2 XOR 13446 2317 2316; G2 XOR 301 2722 13445; G2 XOR 13445 2316 2784;
  G2 XOR 301 2316 13444; G2 XOR 2722 2316 13443; G2 AND 13444 13443 13442; G2 XOR 13442 2316 2315;
  G2 XOR 300 2721 13441; G2 XOR 13441 2315 2783; G2 XOR 300 2315 13440; G2 XOR 2721 2315 13439;
  G2 AND 13440 13439 13438; G2 XOR 13438 2315 2314; G2 XOR 299 2720 13437; G2 XOR 13437 2314 2782;
  G2 XOR 299 2314 13436; G2 XOR 2720 2314 13435; G2 AND 13436 13435 13434; G2 XOR 13434 2314 2313;
  G2 XOR 298 2719 13433; G2 XOR 13433 2313 2781; G2 XOR 298 2313 13432; G2 XOR 2719 2313 13431;
  G2 AND 13432 13431 13430; G2 XOR 13430 2313 2312; G2 XOR 297 2718 13429; G2 XOR 13429 2312 2780;
  G2 XOR 297 2312 13428; G2 XOR 2718 2312 13427; G2 AND 13428 13427 13426; G2 XOR 13426 2312 2311;
  G2 XOR 296 2717 13425; G2 XOR 13425 2311 2779; G2 XOR 296 2311 13424; G2 XOR 2717 2311 13423;
  G2 AND 13424 13423 13422; G2 XOR 13422 2311 2310; G2 XOR 295 2716 13421; G2 XOR 13421 2310 2778;
  G2 XOR 295 2310 13420; G2 XOR 2716 2310 13419; G2 AND 13420 13419 13418; G2 XOR 13418 2310 2309;
  G2 XOR 294 2715 13417; G2 XOR 13417 2309 2777; G2 XOR 294 2309 13416; G2 XOR 2715 2309 13415;
  G2 AND 13416 13415 13414; G2 XOR 13414 2309 2308; G2 XOR 293 2714 13413; G2 XOR 13413 2308 2776;
  G2 XOR 293 2308 13412; G2 XOR 2714 2308 13411; G2 AND 13412 13411 13410; G2 XOR 13410 2308 2307;
  G2 XOR 292 2713 13409; G2 XOR 13409 2307 2775; G2 XOR 292 2307 13408; G2 XOR 2713 2307 13407;
  G2 AND 13408 13407 13406; G2 XOR 13406 2307 2306; G2 XOR 291 2712 13405; G2 XOR 13405 2306 2774;
  G2 XOR 291 2306 13404; G2 XOR 2712 2306 13403; G2 AND 13404 13403 13402; G2 XOR 13402 2306 2305;
  G2 XOR 290 2711 13401; G2 XOR 13401 2305 2773; G2 XOR 290 2305 13400; G2 XOR 2711 2305 13399;
  G2 AND 13400 13399 13398; G2 XOR 13398 2305 2304; G2 XOR 289 2710 13397; G2 XOR 13397 2304 2772;
  G2 XOR 289 2304 13396; G2 XOR 2710 2304 13395; G2 AND 13396 13395 13394; G2 XOR 13394 2304 2303;
  G2 XOR 288 2709 13393; G2 XOR 13393 2303 2771; G2 XOR 288 2303 13392; G2 XOR 2709 2303 13391;
  G2 AND 13392 13391 13390; G2 XOR 13390 2303 2302; G2 XOR 287 2708 13389; G2 XOR 13389 2302 2770;
  G2 XOR 287 2302 13388; G2 XOR 2708 2302 13387; G2 AND 13388 13387 13386; G2 XOR 13386 2302 2301;
  G2 XOR 286 2707 13385; G2 XOR 13385 2301 2769; G2 XOR 286 2301 13384; G2 XOR 2707 2301 13383;
  G2 AND 13384 13383 13382; G2 XOR 13382 2301 2300; G2 XOR 285 2706 13381; G2 XOR 13381 2300 2768;
  G2 XOR 285 2300 13380; G2 XOR 2706 2300 13379; G2 AND 13380 13379 13378; G2 XOR 13378 2300 2299;
  G2 XOR 284 2705 13377; G2 XOR 13377 2299 2767; G2 XOR 284 2299 13376; G2 XOR 2705 2299 13375;
  G2 AND 13376 13375 13374; G2 XOR 13374 2299 2298; G2 XOR 283 2704 13373; G2 XOR 13373 2298 2766;
  G2 XOR 283 2298 13372; G2 XOR 2704 2298 13371; G2 AND 13372 13371 13370; G2 XOR 13370 2298 2297;
  G2 XOR 282 2703 13369; G2 XOR 13369 2297 2765; G2 XOR 282 2297 13368; G2 XOR 2703 2297 13367;
  G2 AND 13368 13367 13366; G2 XOR 13366 2297 2296; G2 XOR 281 2702 13365; G2 XOR 13365 2296 2764;
  G2 XOR 281 2296 13364; G2 XOR 2702 2296 13363; G2 AND 13364 13363 13362; G2 XOR 13362 2296 2295;
  G2 XOR 280 2701 13361; G2 XOR 13361 2295 2763; G2 XOR 280 2295 13360; G2 XOR 2701 2295 13359;
  G2 AND 13360 13359 13358; G2 XOR 13358 2295 2294; G2 XOR 279 2700 13357; G2 XOR 13357 2294 2762;
  G2 XOR 279 2294 13356; G2 XOR 2700 2294 13355; G2 AND 13356 13355 13354; G2 XOR 13354 2294 2293;
  G2 XOR 278 2699 13353; G2 XOR 13353 2293 2761; G2 XOR 278 2293 13352; G2 XOR 2699 2293 13351;
  G2 AND 13352 13351 13350; G2 XOR 13350 2293 2292; G2 XOR 277 2698 13349; G2 XOR 13349 2292 2760;
  G2 XOR 277 2292 13348; G2 XOR 2698 2292 13347; G2 AND 13348 13347 13346; G2 XOR 13346 2292 2291;
  G2 XOR 276 2697 13345; G2 XOR 13345 2291 2759; G2 XOR 276 2291 13344; G2 XOR 2697 2291 13343;
  G2 AND 13344 13343 13342; G2 XOR 13342 2291 2290; G2 XOR 275 2696 13341; G2 XOR 13341 2290 2758;
  G2 XOR 275 2290 13340; G2 XOR 2696 2290 13339; G2 AND 13340 13339 13338; G2 XOR 13338 2290 2289;
  G2 XOR 274 2695 13337; G2 XOR 13337 2289 2757; G2 XOR 274 2289 13336; G2 XOR 2695 2289 13335;
  G2 AND 13336 13335 13334; G2 XOR 13334 2289 2288; G2 XOR 273 2694 13333; G2 XOR 13333 2288 2756;
  G2 XOR 273 2288 13332; G2 XOR 2694 2288 13331; G2 AND 13332 13331 13330; G2 XOR 13330 2288 2287;
  G2 XOR 272 2693 13329; G2 XOR 13329 2287 2755; G2 XOR 272 2287 13328; G2 XOR 2693 2287 13327;
  G2 AND 13328 13327 13326; G2 XOR 13326 2287 2286; G2 XOR 271 2692 13325; G2 XOR 13325 2286 2754;
  G2 XOR 271 2286 13324; G2 XOR 2692 2286 13323; G2 AND 13324 13323 13322; G2 XOR 13322 2286 2285;
  G2 XOR 270 2691 13321; G2 XOR 13321 2285 2753; G2 XOR 270 2285 13320; G2 XOR 2691 2285 13319;
  G2 AND 13320 13319 13318; G2 XOR 13318 2285 2284; G2 XOR 269 2690 13317; G2 XOR 13317 2284 2752;
  G2 XOR 269 2284 13316; G2 XOR 2690 2284 13315; G2 AND 13316 13315 13314; G2 XOR 13314 2284 2283;
  G2 XOR 268 2689 13313; G2 XOR 13313 2283 2751; G2 XOR 268 2283 13312; G2 XOR 2689 2283 13311;
  G2 AND 13312 13311 13310; G2 XOR 13310 2283 2282; G2 XOR 267 2688 13309; G2 XOR 13309 2282 2750;
  G2 XOR 267 2282 13308; G2 XOR 2688 2282 13307; G2 AND 13308 13307 13306; G2 XOR 13306 2282 2281;
  G2 XOR 266 2687 13305; G2 XOR 13305 2281 2749; G2 XOR 266 2281 13304; G2 XOR 2687 2281 13303;
  G2 AND 13304 13303 13302; G2 XOR 13302 2281 2280; G2 XOR 265 2686 13301; G2 XOR 13301 2280 2748;
  G2 XOR 265 2280 13300; G2 XOR 2686 2280 13299; G2 AND 13300 13299 13298; G2 XOR 13298 2280 2279;
  G2 XOR 264 2685 13297; G2 XOR 13297 2279 2747; G2 XOR 264 2279 13296; G2 XOR 2685 2279 13295;
  G2 AND 13296 13295 13294; G2 XOR 13294 2279 2278; G2 XOR 263 2684 13293; G2 XOR 13293 2278 2746;
  G2 XOR 263 2278 13292; G2 XOR 2684 2278 13291; G2 AND 13292 13291 13290; G2 XOR 13290 2278 2277;
  G2 XOR 262 2683 13289; G2 XOR 13289 2277 2745; G2 XOR 262 2277 13288; G2 XOR 2683 2277 13287;
  G2 AND 13288 13287 13286; G2 XOR 13286 2277 2276; G2 XOR 261 2682 13285; G2 XOR 13285 2276 2744;
  G2 XOR 261 2276 13284; G2 XOR 2682 2276 13283; G2 AND 13284 13283 13282; G2 XOR 13282 2276 2275;
  G2 XOR 260 2681 13281; G2 XOR 13281 2275 2743; G2 XOR 260 2275 13280; G2 XOR 2681 2275 13279;
  G2 AND 13280 13279 13278; G2 XOR 13278 2275 2274; G2 XOR 259 2680 13277; G2 XOR 13277 2274 2742;
  G2 XOR 259 2274 13276; G2 XOR 2680 2274 13275; G2 AND 13276 13275 13274; G2 XOR 13274 2274 2273;
  G2 XOR 258 2679 13273; G2 XOR 13273 2273 2741; G2 XOR 258 2273 13272; G2 XOR 2679 2273 13271;
  G2 AND 13272 13271 13270; G2 XOR 13270 2273 2272; G2 XOR 257 2678 13269; G2 XOR 13269 2272 2740;
  G2 XOR 257 2272 13268; G2 XOR 2678 2272 13267; G2 AND 13268 13267 13266; G2 XOR 13266 2272 2271;
  G2 XOR 256 2677 13265; G2 XOR 13265 2271 2739; G2 XOR 256 2271 13264; G2 XOR 2677 2271 13263;
  G2 AND 13264 13263 13262; G2 XOR 13262 2271 2270; G2 XOR 255 2676 13261; G2 XOR 13261 2270 2738;
  G2 XOR 255 2270 13260; G2 XOR 2676 2270 13259; G2 AND 13260 13259 13258; G2 XOR 13258 2270 2269;
  G2 XOR 254 2675 13257; G2 XOR 13257 2269 2737; G2 XOR 375 2796 13256; G2 XOR 13256 2389 2857;
  G2 XOR 436 2857 13743; G2 AND 436 2857 2448; G2 XOR 375 2389 13255; G2 XOR 2796 2389 13254;
  G2 AND 13255 13254 13253; G2 XOR 13253 2389 2388; G2 XOR 374 2795 13252; G2 XOR 13252 2388 2856;
  G2 XOR 374 2388 13251; G2 XOR 2795 2388 13250; G2 AND 13251 13250 13249; G2 XOR 13249 2388 2387;
  G2 XOR 373 2794 13248; G2 XOR 13248 2387 2855; G2 XOR 373 2387 13247; G2 XOR 2794 2387 13246;
  G2 AND 13247 13246 13245; G2 XOR 13245 2387 2386; G2 XOR 372 2793 13244; G2 XOR 13244 2386 2854;
  G2 XOR 372 2386 13243; G2 XOR 2793 2386 13242; G2 AND 13243 13242 13241; G2 XOR 13241 2386 2385;
  G2 XOR 371 2792 13240; G2 XOR 13240 2385 2853; G2 XOR 371 2385 13239; G2 XOR 2792 2385 13238;
  G2 AND 13239 13238 13237; G2 XOR 13237 2385 2384; G2 XOR 370 2791 13236; G2 XOR 13236 2384 2852;
  G2 XOR 370 2384 13235; G2 XOR 2791 2384 13234; G2 AND 13235 13234 13233; G2 XOR 13233 2384 2383;
  G2 XOR 369 2790 13232; G2 XOR 13232 2383 2851; G2 XOR 369 2383 13231; G2 XOR 2790 2383 13230;
  G2 AND 13231 13230 13229; G2 XOR 13229 2383 2382; G2 XOR 368 2789 13228; G2 XOR 13228 2382 2850;
  G2 XOR 368 2382 13227; G2 XOR 2789 2382 13226; G2 AND 13227 13226 13225; G2 XOR 13225 2382 2381;
  G2 XOR 367 2788 13224; G2 XOR 13224 2381 2849; G2 XOR 367 2381 13223; G2 XOR 2788 2381 13222;
  G2 AND 13223 13222 13221; G2 XOR 13221 2381 2380; G2 XOR 366 2787 13220; G2 XOR 13220 2380 2848;
  G2 XOR 366 2380 13219; G2 XOR 2787 2380 13218; G2 AND 13219 13218 13217; G2 XOR 13217 2380 2379;
  G2 XOR 365 2786 13216; G2 XOR 13216 2379 2847; G2 XOR 365 2379 13215; G2 XOR 2786 2379 13214;
  G2 AND 13215 13214 13213; G2 XOR 13213 2379 2378; G2 XOR 364 2785 13212; G2 XOR 13212 2378 2846;
  G2 XOR 364 2378 13211; G2 XOR 2785 2378 13210; G2 AND 13211 13210 13209; G2 XOR 13209 2378 2377;
  G2 XOR 363 2784 13208; G2 XOR 13208 2377 2845; G2 XOR 363 2377 13207; G2 XOR 2784 2377 13206;
  G2 AND 13207 13206 13205; G2 XOR 13205 2377 2376; G2 XOR 362 2783 13204; G2 XOR 13204 2376 2844;
  G2 XOR 362 2376 13203; G2 XOR 2783 2376 13202; G2 AND 13203 13202 13201; G2 XOR 13201 2376 2375;
  G2 XOR 361 2782 13200; G2 XOR 13200 2375 2843; G2 XOR 361 2375 13199; G2 XOR 2782 2375 13198;
  G2 AND 13199 13198 13197; G2 XOR 13197 2375 2374; G2 XOR 360 2781 13196; G2 XOR 13196 2374 2842;
  G2 XOR 360 2374 13195; G2 XOR 2781 2374 13194; G2 AND 13195 13194 13193; G2 XOR 13193 2374 2373;
  G2 XOR 359 2780 13192; G2 XOR 13192 2373 2841; G2 XOR 359 2373 13191; G2 XOR 2780 2373 13190;
  G2 AND 13191 13190 13189; G2 XOR 13189 2373 2372; G2 XOR 358 2779 13188; G2 XOR 13188 2372 2840;
  G2 XOR 358 2372 13187; G2 XOR 2779 2372 13186; G2 AND 13187 13186 13185; G2 XOR 13185 2372 2371;
  G2 XOR 357 2778 13184; G2 XOR 13184 2371 2839; G2 XOR 357 2371 13183; G2 XOR 2778 2371 13182;
  G2 AND 13183 13182 13181; G2 XOR 13181 2371 2370; G2 XOR 356 2777 13180; G2 XOR 13180 2370 2838;
  G2 XOR 356 2370 13179; G2 XOR 2777 2370 13178; G2 AND 13179 13178 13177; G2 XOR 13177 2370 2369;
  G2 XOR 355 2776 13176; G2 XOR 13176 2369 2837; G2 XOR 355 2369 13175; G2 XOR 2776 2369 13174;
  G2 AND 13175 13174 13173; G2 XOR 13173 2369 2368; G2 XOR 354 2775 13172; G2 XOR 13172 2368 2836;
  G2 XOR 354 2368 13171; G2 XOR 2775 2368 13170; G2 AND 13171 13170 13169; G2 XOR 13169 2368 2367;
  G2 XOR 353 2774 13168; G2 XOR 13168 2367 2835; G2 XOR 353 2367 13167; G2 XOR 2774 2367 13166;
  G2 AND 13167 13166 13165; G2 XOR 13165 2367 2366; G2 XOR 352 2773 13164; G2 XOR 13164 2366 2834;
  G2 XOR 352 2366 13163; G2 XOR 2773 2366 13162; G2 AND 13163 13162 13161; G2 XOR 13161 2366 2365;
  G2 XOR 351 2772 13160; G2 XOR 13160 2365 2833; G2 XOR 351 2365 13159; G2 XOR 2772 2365 13158;
  G2 AND 13159 13158 13157; G2 XOR 13157 2365 2364; G2 XOR 350 2771 13156; G2 XOR 13156 2364 2832;
  G2 XOR 350 2364 13155; G2 XOR 2771 2364 13154; G2 AND 13155 13154 13153; G2 XOR 13153 2364 2363;
  G2 XOR 349 2770 13152; G2 XOR 13152 2363 2831; G2 XOR 349 2363 13151; G2 XOR 2770 2363 13150;
  G2 AND 13151 13150 13149; G2 XOR 13149 2363 2362; G2 XOR 348 2769 13148; G2 XOR 13148 2362 2830;
  G2 XOR 348 2362 13147; G2 XOR 2769 2362 13146; G2 AND 13147 13146 13145; G2 XOR 13145 2362 2361;
  G2 XOR 347 2768 13144; G2 XOR 13144 2361 2829; G2 XOR 347 2361 13143; G2 XOR 2768 2361 13142;
  G2 AND 13143 13142 13141; G2 XOR 13141 2361 2360; G2 XOR 346 2767 13140; G2 XOR 13140 2360 2828;
  G2 XOR 346 2360 13139; G2 XOR 2767 2360 13138; G2 AND 13139 13138 13137; G2 XOR 13137 2360 2359;
  G2 XOR 345 2766 13136; G2 XOR 13136 2359 2827; G2 XOR 345 2359 13135; G2 XOR 2766 2359 13134;
  G2 AND 13135 13134 13133; G2 XOR 13133 2359 2358; G2 XOR 344 2765 13132; G2 XOR 13132 2358 2826;
  G2 XOR 344 2358 13131; G2 XOR 2765 2358 13130; G2 AND 13131 13130 13129; G2 XOR 13129 2358 2357;
  G2 XOR 343 2764 13128; G2 XOR 13128 2357 2825; G2 XOR 343 2357 13127; G2 XOR 2764 2357 13126;
  G2 AND 13127 13126 13125; G2 XOR 13125 2357 2356; G2 XOR 342 2763 13124; G2 XOR 13124 2356 2824;
  G2 XOR 342 2356 13123; G2 XOR 2763 2356 13122; G2 AND 13123 13122 13121; G2 XOR 13121 2356 2355;
  G2 XOR 341 2762 13120; G2 XOR 13120 2355 2823; G2 XOR 341 2355 13119; G2 XOR 2762 2355 13118;
  G2 AND 13119 13118 13117; G2 XOR 13117 2355 2354; G2 XOR 340 2761 13116; G2 XOR 13116 2354 2822;
  G2 XOR 340 2354 13115; G2 XOR 2761 2354 13114; G2 AND 13115 13114 13113; G2 XOR 13113 2354 2353;
  G2 XOR 339 2760 13112; G2 XOR 13112 2353 2821; G2 XOR 339 2353 13111; G2 XOR 2760 2353 13110;
  G2 AND 13111 13110 13109; G2 XOR 13109 2353 2352; G2 XOR 338 2759 13108; G2 XOR 13108 2352 2820;
  G2 XOR 338 2352 13107; G2 XOR 2759 2352 13106; G2 AND 13107 13106 13105; G2 XOR 13105 2352 2351;
  G2 XOR 337 2758 13104; G2 XOR 13104 2351 2819; G2 XOR 337 2351 13103; G2 XOR 2758 2351 13102;
  G2 AND 13103 13102 13101; G2 XOR 13101 2351 2350; G2 XOR 336 2757 13100; G2 XOR 13100 2350 2818;
  G2 XOR 336 2350 13099; G2 XOR 2757 2350 13098; G2 AND 13099 13098 13097; G2 XOR 13097 2350 2349;
  G2 XOR 335 2756 13096; G2 XOR 13096 2349 2817; G2 XOR 335 2349 13095; G2 XOR 2756 2349 13094;
  G2 AND 13095 13094 13093; G2 XOR 13093 2349 2348; G2 XOR 334 2755 13092; G2 XOR 13092 2348 2816;
  G2 XOR 334 2348 13091; G2 XOR 2755 2348 13090; G2 AND 13091 13090 13089; G2 XOR 13089 2348 2347;
  G2 XOR 333 2754 13088; G2 XOR 13088 2347 2815; G2 XOR 333 2347 13087; G2 XOR 2754 2347 13086;
  G2 AND 13087 13086 13085; G2 XOR 13085 2347 2346; G2 XOR 332 2753 13084; G2 XOR 13084 2346 2814;
  G2 XOR 332 2346 13083; G2 XOR 2753 2346 13082; G2 AND 13083 13082 13081; G2 XOR 13081 2346 2345;
  G2 XOR 331 2752 13080; G2 XOR 13080 2345 2813; G2 XOR 331 2345 13079; G2 XOR 2752 2345 13078;
  G2 AND 13079 13078 13077; G2 XOR 13077 2345 2344; G2 XOR 330 2751 13076; G2 XOR 13076 2344 2812;
  G2 XOR 330 2344 13075; G2 XOR 2751 2344 13074; G2 AND 13075 13074 13073; G2 XOR 13073 2344 2343;
  G2 XOR 329 2750 13072; G2 XOR 13072 2343 2811; G2 XOR 329 2343 13071; G2 XOR 2750 2343 13070;
  G2 AND 13071 13070 13069; G2 XOR 13069 2343 2342; G2 XOR 328 2749 13068; G2 XOR 13068 2342 2810;
  G2 XOR 328 2342 13067; G2 XOR 2749 2342 13066; G2 AND 13067 13066 13065; G2 XOR 13065 2342 2341;
  G2 XOR 327 2748 13064; G2 XOR 13064 2341 2809; G2 XOR 327 2341 13063; G2 XOR 2748 2341 13062;
  G2 AND 13063 13062 13061; G2 XOR 13061 2341 2340; G2 XOR 326 2747 13060; G2 XOR 13060 2340 2808;
  G2 XOR 326 2340 13059; G2 XOR 2747 2340 13058; G2 AND 13059 13058 13057; G2 XOR 13057 2340 2339;
  G2 XOR 325 2746 13056; G2 XOR 13056 2339 2807; G2 XOR 325 2339 13055; G2 XOR 2746 2339 13054;
  G2 AND 13055 13054 13053; G2 XOR 13053 2339 2338; G2 XOR 324 2745 13052; G2 XOR 13052 2338 2806;
  G2 XOR 324 2338 13051; G2 XOR 2745 2338 13050; G2 AND 13051 13050 13049; G2 XOR 13049 2338 2337;
  G2 XOR 323 2744 13048; G2 XOR 13048 2337 2805; G2 XOR 323 2337 13047; G2 XOR 2744 2337 13046;
  G2 AND 13047 13046 13045; G2 XOR 13045 2337 2336; G2 XOR 322 2743 13044; G2 XOR 13044 2336 2804;
  G2 XOR 322 2336 13043; G2 XOR 2743 2336 13042; G2 AND 13043 13042 13041; G2 XOR 13041 2336 2335;
  G2 XOR 321 2742 13040; G2 XOR 13040 2335 2803; G2 XOR 321 2335 13039; G2 XOR 2742 2335 13038;
  G2 AND 13039 13038 13037; G2 XOR 13037 2335 2334; G2 XOR 320 2741 13036; G2 XOR 13036 2334 2802;
  G2 XOR 320 2334 13035; G2 XOR 2741 2334 13034; G2 AND 13035 13034 13033; G2 XOR 13033 2334 2333;
  G2 XOR 319 2740 13032; G2 XOR 13032 2333 2801; G2 XOR 319 2333 13031; G2 XOR 2740 2333 13030;
  G2 AND 13031 13030 13029; G2 XOR 13029 2333 2332; G2 XOR 318 2739 13028; G2 XOR 13028 2332 2800;
  G2 XOR 318 2332 13027; G2 XOR 2739 2332 13026; G2 AND 13027 13026 13025; G2 XOR 13025 2332 2331;
  G2 XOR 317 2738 13024; G2 XOR 13024 2331 2799; G2 XOR 317 2331 13023; G2 XOR 2738 2331 13022;
  G2 AND 13023 13022 13021; G2 XOR 13021 2331 2330; G2 XOR 316 2737 13020; G2 XOR 13020 2330 2798;
  G2 XOR 435 2856 13019; G2 XOR 13019 2448 2916; G2 XOR 495 2916 13744; G2 AND 495 2916 2506;
  G2 XOR 435 2448 13018; G2 XOR 2856 2448 13017; G2 AND 13018 13017 13016; G2 XOR 13016 2448 2447;
  G2 XOR 434 2855 13015; G2 XOR 13015 2447 2915; G2 XOR 434 2447 13014; G2 XOR 2855 2447 13013;
  G2 AND 13014 13013 13012; G2 XOR 13012 2447 2446; G2 XOR 433 2854 13011; G2 XOR 13011 2446 2914;
  G2 XOR 433 2446 13010; G2 XOR 2854 2446 13009; G2 AND 13010 13009 13008; G2 XOR 13008 2446 2445;
  G2 XOR 432 2853 13007; G2 XOR 13007 2445 2913; G2 XOR 432 2445 13006; G2 XOR 2853 2445 13005;
  G2 AND 13006 13005 13004; G2 XOR 13004 2445 2444; G2 XOR 431 2852 13003; G2 XOR 13003 2444 2912;
  G2 XOR 431 2444 13002; G2 XOR 2852 2444 13001; G2 AND 13002 13001 13000; G2 XOR 13000 2444 2443;
  G2 XOR 430 2851 12999; G2 XOR 12999 2443 2911; G2 XOR 430 2443 12998; G2 XOR 2851 2443 12997;
  G2 AND 12998 12997 12996; G2 XOR 12996 2443 2442; G2 XOR 429 2850 12995; G2 XOR 12995 2442 2910;
  G2 XOR 429 2442 12994; G2 XOR 2850 2442 12993; G2 AND 12994 12993 12992; G2 XOR 12992 2442 2441;
  G2 XOR 428 2849 12991; G2 XOR 12991 2441 2909; G2 XOR 428 2441 12990; G2 XOR 2849 2441 12989;
  G2 AND 12990 12989 12988; G2 XOR 12988 2441 2440; G2 XOR 427 2848 12987; G2 XOR 12987 2440 2908;
  G2 XOR 427 2440 12986; G2 XOR 2848 2440 12985; G2 AND 12986 12985 12984; G2 XOR 12984 2440 2439;
  G2 XOR 426 2847 12983; G2 XOR 12983 2439 2907; G2 XOR 426 2439 12982; G2 XOR 2847 2439 12981;
  G2 AND 12982 12981 12980; G2 XOR 12980 2439 2438; G2 XOR 425 2846 12979; G2 XOR 12979 2438 2906;
  G2 XOR 425 2438 12978; G2 XOR 2846 2438 12977; G2 AND 12978 12977 12976; G2 XOR 12976 2438 2437;
  G2 XOR 424 2845 12975; G2 XOR 12975 2437 2905; G2 XOR 424 2437 12974; G2 XOR 2845 2437 12973;
  G2 AND 12974 12973 12972; G2 XOR 12972 2437 2436; G2 XOR 423 2844 12971; G2 XOR 12971 2436 2904;
  G2 XOR 423 2436 12970; G2 XOR 2844 2436 12969; G2 AND 12970 12969 12968; G2 XOR 12968 2436 2435;
  G2 XOR 422 2843 12967; G2 XOR 12967 2435 2903; G2 XOR 422 2435 12966; G2 XOR 2843 2435 12965;
  G2 AND 12966 12965 12964; G2 XOR 12964 2435 2434; G2 XOR 421 2842 12963; G2 XOR 12963 2434 2902;
  G2 XOR 421 2434 12962; G2 XOR 2842 2434 12961; G2 AND 12962 12961 12960; G2 XOR 12960 2434 2433;
  G2 XOR 420 2841 12959; G2 XOR 12959 2433 2901; G2 XOR 420 2433 12958; G2 XOR 2841 2433 12957;
  G2 AND 12958 12957 12956; G2 XOR 12956 2433 2432; G2 XOR 419 2840 12955; G2 XOR 12955 2432 2900;
  G2 XOR 419 2432 12954; G2 XOR 2840 2432 12953; G2 AND 12954 12953 12952; G2 XOR 12952 2432 2431;
  G2 XOR 418 2839 12951; G2 XOR 12951 2431 2899; G2 XOR 418 2431 12950; G2 XOR 2839 2431 12949;
  G2 AND 12950 12949 12948; G2 XOR 12948 2431 2430; G2 XOR 417 2838 12947; G2 XOR 12947 2430 2898;
  G2 XOR 417 2430 12946; G2 XOR 2838 2430 12945; G2 AND 12946 12945 12944; G2 XOR 12944 2430 2429;
  G2 XOR 416 2837 12943; G2 XOR 12943 2429 2897; G2 XOR 416 2429 12942; G2 XOR 2837 2429 12941;
  G2 AND 12942 12941 12940; G2 XOR 12940 2429 2428; G2 XOR 415 2836 12939; G2 XOR 12939 2428 2896;
  G2 XOR 415 2428 12938; G2 XOR 2836 2428 12937; G2 AND 12938 12937 12936; G2 XOR 12936 2428 2427;
  G2 XOR 414 2835 12935; G2 XOR 12935 2427 2895; G2 XOR 414 2427 12934; G2 XOR 2835 2427 12933;
  G2 AND 12934 12933 12932; G2 XOR 12932 2427 2426; G2 XOR 413 2834 12931; G2 XOR 12931 2426 2894;
  G2 XOR 413 2426 12930; G2 XOR 2834 2426 12929; G2 AND 12930 12929 12928; G2 XOR 12928 2426 2425;
  G2 XOR 412 2833 12927; G2 XOR 12927 2425 2893; G2 XOR 412 2425 12926; G2 XOR 2833 2425 12925;
  G2 AND 12926 12925 12924; G2 XOR 12924 2425 2424; G2 XOR 411 2832 12923; G2 XOR 12923 2424 2892;
  G2 XOR 411 2424 12922; G2 XOR 2832 2424 12921; G2 AND 12922 12921 12920; G2 XOR 12920 2424 2423;
  G2 XOR 410 2831 12919; G2 XOR 12919 2423 2891; G2 XOR 410 2423 12918; G2 XOR 2831 2423 12917;
  G2 AND 12918 12917 12916; G2 XOR 12916 2423 2422; G2 XOR 409 2830 12915; G2 XOR 12915 2422 2890;
  G2 XOR 409 2422 12914; G2 XOR 2830 2422 12913; G2 AND 12914 12913 12912; G2 XOR 12912 2422 2421;
  G2 XOR 408 2829 12911; G2 XOR 12911 2421 2889; G2 XOR 408 2421 12910; G2 XOR 2829 2421 12909;
  G2 AND 12910 12909 12908; G2 XOR 12908 2421 2420; G2 XOR 407 2828 12907; G2 XOR 12907 2420 2888;
  G2 XOR 407 2420 12906; G2 XOR 2828 2420 12905; G2 AND 12906 12905 12904; G2 XOR 12904 2420 2419;
  G2 XOR 406 2827 12903; G2 XOR 12903 2419 2887; G2 XOR 406 2419 12902; G2 XOR 2827 2419 12901;
  G2 AND 12902 12901 12900; G2 XOR 12900 2419 2418; G2 XOR 405 2826 12899; G2 XOR 12899 2418 2886;
  G2 XOR 405 2418 12898; G2 XOR 2826 2418 12897; G2 AND 12898 12897 12896; G2 XOR 12896 2418 2417;
  G2 XOR 404 2825 12895; G2 XOR 12895 2417 2885; G2 XOR 404 2417 12894; G2 XOR 2825 2417 12893;
  G2 AND 12894 12893 12892; G2 XOR 12892 2417 2416; G2 XOR 403 2824 12891; G2 XOR 12891 2416 2884;
  G2 XOR 403 2416 12890; G2 XOR 2824 2416 12889; G2 AND 12890 12889 12888; G2 XOR 12888 2416 2415;
  G2 XOR 402 2823 12887; G2 XOR 12887 2415 2883; G2 XOR 402 2415 12886; G2 XOR 2823 2415 12885;
  G2 AND 12886 12885 12884; G2 XOR 12884 2415 2414; G2 XOR 401 2822 12883; G2 XOR 12883 2414 2882;
  G2 XOR 401 2414 12882; G2 XOR 2822 2414 12881; G2 AND 12882 12881 12880; G2 XOR 12880 2414 2413;
  G2 XOR 400 2821 12879; G2 XOR 12879 2413 2881; G2 XOR 400 2413 12878; G2 XOR 2821 2413 12877;
  G2 AND 12878 12877 12876; G2 XOR 12876 2413 2412; G2 XOR 399 2820 12875; G2 XOR 12875 2412 2880;
  G2 XOR 399 2412 12874; G2 XOR 2820 2412 12873; G2 AND 12874 12873 12872; G2 XOR 12872 2412 2411;
  G2 XOR 398 2819 12871; G2 XOR 12871 2411 2879; G2 XOR 398 2411 12870; G2 XOR 2819 2411 12869;
  G2 AND 12870 12869 12868; G2 XOR 12868 2411 2410; G2 XOR 397 2818 12867; G2 XOR 12867 2410 2878;
  G2 XOR 397 2410 12866; G2 XOR 2818 2410 12865; G2 AND 12866 12865 12864; G2 XOR 12864 2410 2409;
  G2 XOR 396 2817 12863; G2 XOR 12863 2409 2877; G2 XOR 396 2409 12862; G2 XOR 2817 2409 12861;
  G2 AND 12862 12861 12860; G2 XOR 12860 2409 2408; G2 XOR 395 2816 12859; G2 XOR 12859 2408 2876;
  G2 XOR 395 2408 12858; G2 XOR 2816 2408 12857; G2 AND 12858 12857 12856; G2 XOR 12856 2408 2407;
  G2 XOR 394 2815 12855; G2 XOR 12855 2407 2875; G2 XOR 394 2407 12854; G2 XOR 2815 2407 12853;
  G2 AND 12854 12853 12852; G2 XOR 12852 2407 2406; G2 XOR 393 2814 12851; G2 XOR 12851 2406 2874;
  G2 XOR 393 2406 12850; G2 XOR 2814 2406 12849; G2 AND 12850 12849 12848; G2 XOR 12848 2406 2405;
  G2 XOR 392 2813 12847; G2 XOR 12847 2405 2873; G2 XOR 392 2405 12846; G2 XOR 2813 2405 12845;
  G2 AND 12846 12845 12844; G2 XOR 12844 2405 2404; G2 XOR 391 2812 12843; G2 XOR 12843 2404 2872;
  G2 XOR 391 2404 12842; G2 XOR 2812 2404 12841; G2 AND 12842 12841 12840; G2 XOR 12840 2404 2403;
  G2 XOR 390 2811 12839; G2 XOR 12839 2403 2871; G2 XOR 390 2403 12838; G2 XOR 2811 2403 12837;
  G2 AND 12838 12837 12836; G2 XOR 12836 2403 2402; G2 XOR 389 2810 12835; G2 XOR 12835 2402 2870;
  G2 XOR 389 2402 12834; G2 XOR 2810 2402 12833; G2 AND 12834 12833 12832; G2 XOR 12832 2402 2401;
  G2 XOR 388 2809 12831; G2 XOR 12831 2401 2869; G2 XOR 388 2401 12830; G2 XOR 2809 2401 12829;
  G2 AND 12830 12829 12828; G2 XOR 12828 2401 2400; G2 XOR 387 2808 12827; G2 XOR 12827 2400 2868;
  G2 XOR 387 2400 12826; G2 XOR 2808 2400 12825; G2 AND 12826 12825 12824; G2 XOR 12824 2400 2399;
  G2 XOR 386 2807 12823; G2 XOR 12823 2399 2867; G2 XOR 386 2399 12822; G2 XOR 2807 2399 12821;
  G2 AND 12822 12821 12820; G2 XOR 12820 2399 2398; G2 XOR 385 2806 12819; G2 XOR 12819 2398 2866;
  G2 XOR 385 2398 12818; G2 XOR 2806 2398 12817; G2 AND 12818 12817 12816; G2 XOR 12816 2398 2397;
  G2 XOR 384 2805 12815; G2 XOR 12815 2397 2865; G2 XOR 384 2397 12814; G2 XOR 2805 2397 12813;
  G2 AND 12814 12813 12812; G2 XOR 12812 2397 2396; G2 XOR 383 2804 12811; G2 XOR 12811 2396 2864;
  G2 XOR 383 2396 12810; G2 XOR 2804 2396 12809; G2 AND 12810 12809 12808; G2 XOR 12808 2396 2395;
  G2 XOR 382 2803 12807; G2 XOR 12807 2395 2863; G2 XOR 382 2395 12806; G2 XOR 2803 2395 12805;
  G2 AND 12806 12805 12804; G2 XOR 12804 2395 2394; G2 XOR 381 2802 12803; G2 XOR 12803 2394 2862;
  G2 XOR 381 2394 12802; G2 XOR 2802 2394 12801; G2 AND 12802 12801 12800; G2 XOR 12800 2394 2393;
  G2 XOR 380 2801 12799; G2 XOR 12799 2393 2861; G2 XOR 380 2393 12798; G2 XOR 2801 2393 12797;
  G2 AND 12798 12797 12796; G2 XOR 12796 2393 2392; G2 XOR 379 2800 12795; G2 XOR 12795 2392 2860;
  G2 XOR 379 2392 12794; G2 XOR 2800 2392 12793; G2 AND 12794 12793 12792; G2 XOR 12792 2392 2391;
  G2 XOR 378 2799 12791; G2 XOR 12791 2391 2859; G2 XOR 378 2391 12790; G2 XOR 2799 2391 12789;
  G2 AND 12790 12789 12788; G2 XOR 12788 2391 2390; G2 XOR 377 2798 12787; G2 XOR 12787 2390 2858;
  G2 XOR 494 2915 12786; G2 XOR 12786 2506 2974; G2 XOR 553 2974 13745; G2 AND 553 2974 2563;
  G2 XOR 494 2506 12785; G2 XOR 2915 2506 12784; G2 AND 12785 12784 12783; G2 XOR 12783 2506 2505;
  G2 XOR 493 2914 12782; G2 XOR 12782 2505 2973; G2 XOR 493 2505 12781; G2 XOR 2914 2505 12780;
  G2 AND 12781 12780 12779; G2 XOR 12779 2505 2504; G2 XOR 492 2913 12778; G2 XOR 12778 2504 2972;
  G2 XOR 492 2504 12777; G2 XOR 2913 2504 12776; G2 AND 12777 12776 12775; G2 XOR 12775 2504 2503;
  G2 XOR 491 2912 12774; G2 XOR 12774 2503 2971; G2 XOR 491 2503 12773; G2 XOR 2912 2503 12772;
  G2 AND 12773 12772 12771; G2 XOR 12771 2503 2502; G2 XOR 490 2911 12770; G2 XOR 12770 2502 2970;
  G2 XOR 490 2502 12769; G2 XOR 2911 2502 12768; G2 AND 12769 12768 12767; G2 XOR 12767 2502 2501;
  G2 XOR 489 2910 12766; G2 XOR 12766 2501 2969; G2 XOR 489 2501 12765; G2 XOR 2910 2501 12764;
  G2 AND 12765 12764 12763; G2 XOR 12763 2501 2500; G2 XOR 488 2909 12762; G2 XOR 12762 2500 2968;
  G2 XOR 488 2500 12761; G2 XOR 2909 2500 12760; G2 AND 12761 12760 12759; G2 XOR 12759 2500 2499;
  G2 XOR 487 2908 12758; G2 XOR 12758 2499 2967; G2 XOR 487 2499 12757; G2 XOR 2908 2499 12756;
  G2 AND 12757 12756 12755; G2 XOR 12755 2499 2498; G2 XOR 486 2907 12754; G2 XOR 12754 2498 2966;
  G2 XOR 486 2498 12753; G2 XOR 2907 2498 12752; G2 AND 12753 12752 12751; G2 XOR 12751 2498 2497;
  G2 XOR 485 2906 12750; G2 XOR 12750 2497 2965; G2 XOR 485 2497 12749; G2 XOR 2906 2497 12748;
  G2 AND 12749 12748 12747; G2 XOR 12747 2497 2496; G2 XOR 484 2905 12746; G2 XOR 12746 2496 2964;
  G2 XOR 484 2496 12745; G2 XOR 2905 2496 12744; G2 AND 12745 12744 12743; G2 XOR 12743 2496 2495;
  G2 XOR 483 2904 12742; G2 XOR 12742 2495 2963; G2 XOR 483 2495 12741; G2 XOR 2904 2495 12740;
  G2 AND 12741 12740 12739; G2 XOR 12739 2495 2494; G2 XOR 482 2903 12738; G2 XOR 12738 2494 2962;
  G2 XOR 482 2494 12737; G2 XOR 2903 2494 12736; G2 AND 12737 12736 12735; G2 XOR 12735 2494 2493;
  G2 XOR 481 2902 12734; G2 XOR 12734 2493 2961; G2 XOR 481 2493 12733; G2 XOR 2902 2493 12732;
  G2 AND 12733 12732 12731; G2 XOR 12731 2493 2492; G2 XOR 480 2901 12730; G2 XOR 12730 2492 2960;
  G2 XOR 480 2492 12729; G2 XOR 2901 2492 12728; G2 AND 12729 12728 12727; G2 XOR 12727 2492 2491;
  G2 XOR 479 2900 12726; G2 XOR 12726 2491 2959; G2 XOR 479 2491 12725; G2 XOR 2900 2491 12724;
  G2 AND 12725 12724 12723; G2 XOR 12723 2491 2490; G2 XOR 478 2899 12722; G2 XOR 12722 2490 2958;
  G2 XOR 478 2490 12721; G2 XOR 2899 2490 12720; G2 AND 12721 12720 12719; G2 XOR 12719 2490 2489;
  G2 XOR 477 2898 12718; G2 XOR 12718 2489 2957; G2 XOR 477 2489 12717; G2 XOR 2898 2489 12716;
  G2 AND 12717 12716 12715; G2 XOR 12715 2489 2488; G2 XOR 476 2897 12714; G2 XOR 12714 2488 2956;
  G2 XOR 476 2488 12713; G2 XOR 2897 2488 12712; G2 AND 12713 12712 12711; G2 XOR 12711 2488 2487;
  G2 XOR 475 2896 12710; G2 XOR 12710 2487 2955; G2 XOR 475 2487 12709; G2 XOR 2896 2487 12708;
  G2 AND 12709 12708 12707; G2 XOR 12707 2487 2486; G2 XOR 474 2895 12706; G2 XOR 12706 2486 2954;
  G2 XOR 474 2486 12705; G2 XOR 2895 2486 12704; G2 AND 12705 12704 12703; G2 XOR 12703 2486 2485;
  G2 XOR 473 2894 12702; G2 XOR 12702 2485 2953; G2 XOR 473 2485 12701; G2 XOR 2894 2485 12700;
  G2 AND 12701 12700 12699; G2 XOR 12699 2485 2484; G2 XOR 472 2893 12698; G2 XOR 12698 2484 2952;
  G2 XOR 472 2484 12697; G2 XOR 2893 2484 12696; G2 AND 12697 12696 12695; G2 XOR 12695 2484 2483;
  G2 XOR 471 2892 12694; G2 XOR 12694 2483 2951; G2 XOR 471 2483 12693; G2 XOR 2892 2483 12692;
  G2 AND 12693 12692 12691; G2 XOR 12691 2483 2482; G2 XOR 470 2891 12690; G2 XOR 12690 2482 2950;
  G2 XOR 470 2482 12689; G2 XOR 2891 2482 12688; G2 AND 12689 12688 12687; G2 XOR 12687 2482 2481;
  G2 XOR 469 2890 12686; G2 XOR 12686 2481 2949; G2 XOR 469 2481 12685; G2 XOR 2890 2481 12684;
  G2 AND 12685 12684 12683; G2 XOR 12683 2481 2480; G2 XOR 468 2889 12682; G2 XOR 12682 2480 2948;
  G2 XOR 468 2480 12681; G2 XOR 2889 2480 12680; G2 AND 12681 12680 12679; G2 XOR 12679 2480 2479;
  G2 XOR 467 2888 12678; G2 XOR 12678 2479 2947; G2 XOR 467 2479 12677; G2 XOR 2888 2479 12676;
  G2 AND 12677 12676 12675; G2 XOR 12675 2479 2478; G2 XOR 466 2887 12674; G2 XOR 12674 2478 2946;
  G2 XOR 466 2478 12673; G2 XOR 2887 2478 12672; G2 AND 12673 12672 12671; G2 XOR 12671 2478 2477;
  G2 XOR 465 2886 12670; G2 XOR 12670 2477 2945; G2 XOR 465 2477 12669; G2 XOR 2886 2477 12668;
  G2 AND 12669 12668 12667; G2 XOR 12667 2477 2476; G2 XOR 464 2885 12666; G2 XOR 12666 2476 2944;
  G2 XOR 464 2476 12665; G2 XOR 2885 2476 12664; G2 AND 12665 12664 12663; G2 XOR 12663 2476 2475;
  G2 XOR 463 2884 12662; G2 XOR 12662 2475 2943; G2 XOR 463 2475 12661; G2 XOR 2884 2475 12660;
  G2 AND 12661 12660 12659; G2 XOR 12659 2475 2474; G2 XOR 462 2883 12658; G2 XOR 12658 2474 2942;
  G2 XOR 462 2474 12657; G2 XOR 2883 2474 12656; G2 AND 12657 12656 12655; G2 XOR 12655 2474 2473;
  G2 XOR 461 2882 12654; G2 XOR 12654 2473 2941; G2 XOR 461 2473 12653; G2 XOR 2882 2473 12652;
  G2 AND 12653 12652 12651; G2 XOR 12651 2473 2472; G2 XOR 460 2881 12650; G2 XOR 12650 2472 2940;
  G2 XOR 460 2472 12649; G2 XOR 2881 2472 12648; G2 AND 12649 12648 12647; G2 XOR 12647 2472 2471;
  G2 XOR 459 2880 12646; G2 XOR 12646 2471 2939; G2 XOR 459 2471 12645; G2 XOR 2880 2471 12644;
  G2 AND 12645 12644 12643; G2 XOR 12643 2471 2470; G2 XOR 458 2879 12642; G2 XOR 12642 2470 2938;
  G2 XOR 458 2470 12641; G2 XOR 2879 2470 12640; G2 AND 12641 12640 12639; G2 XOR 12639 2470 2469;
  G2 XOR 457 2878 12638; G2 XOR 12638 2469 2937; G2 XOR 457 2469 12637; G2 XOR 2878 2469 12636;
  G2 AND 12637 12636 12635; G2 XOR 12635 2469 2468; G2 XOR 456 2877 12634; G2 XOR 12634 2468 2936;
  G2 XOR 456 2468 12633; G2 XOR 2877 2468 12632; G2 AND 12633 12632 12631; G2 XOR 12631 2468 2467;
  G2 XOR 455 2876 12630; G2 XOR 12630 2467 2935; G2 XOR 455 2467 12629; G2 XOR 2876 2467 12628;
  G2 AND 12629 12628 12627; G2 XOR 12627 2467 2466; G2 XOR 454 2875 12626; G2 XOR 12626 2466 2934;
  G2 XOR 454 2466 12625; G2 XOR 2875 2466 12624; G2 AND 12625 12624 12623; G2 XOR 12623 2466 2465;
  G2 XOR 453 2874 12622; G2 XOR 12622 2465 2933; G2 XOR 453 2465 12621; G2 XOR 2874 2465 12620;
  G2 AND 12621 12620 12619; G2 XOR 12619 2465 2464; G2 XOR 452 2873 12618; G2 XOR 12618 2464 2932;
  G2 XOR 511 2932 12393; G2 XOR 452 2464 12617; G2 XOR 2873 2464 12616; G2 AND 12617 12616 12615;
  G2 XOR 12615 2464 2463; G2 XOR 451 2872 12614; G2 XOR 12614 2463 2931; G2 XOR 510 2931 12389;
  G2 XOR 451 2463 12613; G2 XOR 2872 2463 12612; G2 AND 12613 12612 12611; G2 XOR 12611 2463 2462;
  G2 XOR 450 2871 12610; G2 XOR 12610 2462 2930; G2 XOR 509 2930 12385; G2 XOR 450 2462 12609;
  G2 XOR 2871 2462 12608; G2 AND 12609 12608 12607; G2 XOR 12607 2462 2461; G2 XOR 449 2870 12606;
  G2 XOR 12606 2461 2929; G2 XOR 508 2929 12381; G2 XOR 449 2461 12605; G2 XOR 2870 2461 12604;
  G2 AND 12605 12604 12603; G2 XOR 12603 2461 2460; G2 XOR 448 2869 12602; G2 XOR 12602 2460 2928;
  G2 XOR 507 2928 12377; G2 XOR 448 2460 12601; G2 XOR 2869 2460 12600; G2 AND 12601 12600 12599;
  G2 XOR 12599 2460 2459; G2 XOR 447 2868 12598; G2 XOR 12598 2459 2927; G2 XOR 506 2927 12373;
  G2 XOR 447 2459 12597; G2 XOR 2868 2459 12596; G2 AND 12597 12596 12595; G2 XOR 12595 2459 2458;
  G2 XOR 446 2867 12594; G2 XOR 12594 2458 2926; G2 XOR 505 2926 12369; G2 XOR 446 2458 12593;
  G2 XOR 2867 2458 12592; G2 AND 12593 12592 12591; G2 XOR 12591 2458 2457; G2 XOR 445 2866 12590;
  G2 XOR 12590 2457 2925; G2 XOR 504 2925 12365; G2 XOR 445 2457 12589; G2 XOR 2866 2457 12588;
  G2 AND 12589 12588 12587; G2 XOR 12587 2457 2456; G2 XOR 444 2865 12586; G2 XOR 12586 2456 2924;
  G2 XOR 503 2924 12361; G2 XOR 444 2456 12585; G2 XOR 2865 2456 12584; G2 AND 12585 12584 12583;
  G2 XOR 12583 2456 2455; G2 XOR 443 2864 12582; G2 XOR 12582 2455 2923; G2 XOR 502 2923 12357;
  G2 XOR 443 2455 12581; G2 XOR 2864 2455 12580; G2 AND 12581 12580 12579; G2 XOR 12579 2455 2454;
  G2 XOR 442 2863 12578; G2 XOR 12578 2454 2922; G2 XOR 501 2922 12353; G2 XOR 442 2454 12577;
  G2 XOR 2863 2454 12576; G2 AND 12577 12576 12575; G2 XOR 12575 2454 2453; G2 XOR 441 2862 12574;
  G2 XOR 12574 2453 2921; G2 XOR 500 2921 12349; G2 XOR 441 2453 12573; G2 XOR 2862 2453 12572;
  G2 AND 12573 12572 12571; G2 XOR 12571 2453 2452; G2 XOR 440 2861 12570; G2 XOR 12570 2452 2920;
  G2 XOR 499 2920 12345; G2 XOR 440 2452 12569; G2 XOR 2861 2452 12568; G2 AND 12569 12568 12567;
  G2 XOR 12567 2452 2451; G2 XOR 439 2860 12566; G2 XOR 12566 2451 2919; G2 XOR 498 2919 12341;
  G2 XOR 439 2451 12565; G2 XOR 2860 2451 12564; G2 AND 12565 12564 12563; G2 XOR 12563 2451 2450;
  G2 XOR 438 2859 12562; G2 XOR 12562 2450 2918; G2 XOR 497 2918 12337; G2 XOR 438 2450 12561;
  G2 XOR 2859 2450 12560; G2 AND 12561 12560 12559; G2 XOR 12559 2450 2449; G2 XOR 437 2858 12558;
  G2 XOR 12558 2449 2917; G2 XOR 496 2917 12333; G2 XOR 552 2973 12557; G2 XOR 12557 2563 3031;
  G2 XOR 610 3031 13746; G2 AND 610 3031 2619; G2 XOR 552 2563 12556; G2 XOR 2973 2563 12555;
  G2 AND 12556 12555 12554; G2 XOR 12554 2563 2562; G2 XOR 551 2972 12553; G2 XOR 12553 2562 3030;
  G2 XOR 3030 2619 12330; G2 XOR 609 3030 12332; G2 XOR 551 2562 12552; G2 XOR 2972 2562 12551;
  G2 AND 12552 12551 12550; G2 XOR 12550 2562 2561; G2 XOR 550 2971 12549; G2 XOR 12549 2561 3029;
  G2 XOR 608 3029 12328; G2 XOR 550 2561 12548; G2 XOR 2971 2561 12547; G2 AND 12548 12547 12546;
  G2 XOR 12546 2561 2560; G2 XOR 549 2970 12545; G2 XOR 12545 2560 3028; G2 XOR 607 3028 12324;
  G2 XOR 549 2560 12544; G2 XOR 2970 2560 12543; G2 AND 12544 12543 12542; G2 XOR 12542 2560 2559;
  G2 XOR 548 2969 12541; G2 XOR 12541 2559 3027; G2 XOR 606 3027 12320; G2 XOR 548 2559 12540;
  G2 XOR 2969 2559 12539; G2 AND 12540 12539 12538; G2 XOR 12538 2559 2558; G2 XOR 547 2968 12537;
  G2 XOR 12537 2558 3026; G2 XOR 605 3026 12316; G2 XOR 547 2558 12536; G2 XOR 2968 2558 12535;
  G2 AND 12536 12535 12534; G2 XOR 12534 2558 2557; G2 XOR 546 2967 12533; G2 XOR 12533 2557 3025;
  G2 XOR 604 3025 12312; G2 XOR 546 2557 12532; G2 XOR 2967 2557 12531; G2 AND 12532 12531 12530;
  G2 XOR 12530 2557 2556; G2 XOR 545 2966 12529; G2 XOR 12529 2556 3024; G2 XOR 603 3024 12308;
  G2 XOR 545 2556 12528; G2 XOR 2966 2556 12527; G2 AND 12528 12527 12526; G2 XOR 12526 2556 2555;
  G2 XOR 544 2965 12525; G2 XOR 12525 2555 3023; G2 XOR 602 3023 12304; G2 XOR 544 2555 12524;
  G2 XOR 2965 2555 12523; G2 AND 12524 12523 12522; G2 XOR 12522 2555 2554; G2 XOR 543 2964 12521;
  G2 XOR 12521 2554 3022; G2 XOR 601 3022 12300; G2 XOR 543 2554 12520; G2 XOR 2964 2554 12519;
  G2 AND 12520 12519 12518; G2 XOR 12518 2554 2553; G2 XOR 542 2963 12517; G2 XOR 12517 2553 3021;
  G2 XOR 600 3021 12296; G2 XOR 542 2553 12516; G2 XOR 2963 2553 12515; G2 AND 12516 12515 12514;
  G2 XOR 12514 2553 2552; G2 XOR 541 2962 12513; G2 XOR 12513 2552 3020; G2 XOR 599 3020 12292;
  G2 XOR 541 2552 12512; G2 XOR 2962 2552 12511; G2 AND 12512 12511 12510; G2 XOR 12510 2552 2551;
  G2 XOR 540 2961 12509; G2 XOR 12509 2551 3019; G2 XOR 598 3019 12288; G2 XOR 540 2551 12508;
  G2 XOR 2961 2551 12507; G2 AND 12508 12507 12506; G2 XOR 12506 2551 2550; G2 XOR 539 2960 12505;
  G2 XOR 12505 2550 3018; G2 XOR 597 3018 12284; G2 XOR 539 2550 12504; G2 XOR 2960 2550 12503;
  G2 AND 12504 12503 12502; G2 XOR 12502 2550 2549; G2 XOR 538 2959 12501; G2 XOR 12501 2549 3017;
  G2 XOR 596 3017 12280; G2 XOR 538 2549 12500; G2 XOR 2959 2549 12499; G2 AND 12500 12499 12498;
  G2 XOR 12498 2549 2548; G2 XOR 537 2958 12497; G2 XOR 12497 2548 3016; G2 XOR 595 3016 12276;
  G2 XOR 537 2548 12496; G2 XOR 2958 2548 12495; G2 AND 12496 12495 12494; G2 XOR 12494 2548 2547;
  G2 XOR 536 2957 12493; G2 XOR 12493 2547 3015; G2 XOR 594 3015 12272; G2 XOR 536 2547 12492;
  G2 XOR 2957 2547 12491; G2 AND 12492 12491 12490; G2 XOR 12490 2547 2546; G2 XOR 535 2956 12489;
  G2 XOR 12489 2546 3014; G2 XOR 593 3014 12268; G2 XOR 535 2546 12488; G2 XOR 2956 2546 12487;
  G2 AND 12488 12487 12486; G2 XOR 12486 2546 2545; G2 XOR 534 2955 12485; G2 XOR 12485 2545 3013;
  G2 XOR 592 3013 12264; G2 XOR 534 2545 12484; G2 XOR 2955 2545 12483; G2 AND 12484 12483 12482;
  G2 XOR 12482 2545 2544; G2 XOR 533 2954 12481; G2 XOR 12481 2544 3012; G2 XOR 591 3012 12260;
  G2 XOR 533 2544 12480; G2 XOR 2954 2544 12479; G2 AND 12480 12479 12478; G2 XOR 12478 2544 2543;
  G2 XOR 532 2953 12477; G2 XOR 12477 2543 3011; G2 XOR 590 3011 12256; G2 XOR 532 2543 12476;
  G2 XOR 2953 2543 12475; G2 AND 12476 12475 12474; G2 XOR 12474 2543 2542; G2 XOR 531 2952 12473;
  G2 XOR 12473 2542 3010; G2 XOR 589 3010 12252; G2 XOR 531 2542 12472; G2 XOR 2952 2542 12471;
  G2 AND 12472 12471 12470; G2 XOR 12470 2542 2541; G2 XOR 530 2951 12469; G2 XOR 12469 2541 3009;
  G2 XOR 588 3009 12248; G2 XOR 530 2541 12468; G2 XOR 2951 2541 12467; G2 AND 12468 12467 12466;
  G2 XOR 12466 2541 2540; G2 XOR 529 2950 12465; G2 XOR 12465 2540 3008; G2 XOR 587 3008 12244;
  G2 XOR 529 2540 12464; G2 XOR 2950 2540 12463; G2 AND 12464 12463 12462; G2 XOR 12462 2540 2539;
  G2 XOR 528 2949 12461; G2 XOR 12461 2539 3007; G2 XOR 586 3007 12240; G2 XOR 528 2539 12460;
  G2 XOR 2949 2539 12459; G2 AND 12460 12459 12458; G2 XOR 12458 2539 2538; G2 XOR 527 2948 12457;
  G2 XOR 12457 2538 3006; G2 XOR 585 3006 12236; G2 XOR 527 2538 12456; G2 XOR 2948 2538 12455;
  G2 AND 12456 12455 12454; G2 XOR 12454 2538 2537; G2 XOR 526 2947 12453; G2 XOR 12453 2537 3005;
  G2 XOR 584 3005 12232; G2 XOR 526 2537 12452; G2 XOR 2947 2537 12451; G2 AND 12452 12451 12450;
  G2 XOR 12450 2537 2536; G2 XOR 525 2946 12449; G2 XOR 12449 2536 3004; G2 XOR 583 3004 12228;
  G2 XOR 525 2536 12448; G2 XOR 2946 2536 12447; G2 AND 12448 12447 12446; G2 XOR 12446 2536 2535;
  G2 XOR 524 2945 12445; G2 XOR 12445 2535 3003; G2 XOR 582 3003 12224; G2 XOR 524 2535 12444;
  G2 XOR 2945 2535 12443; G2 AND 12444 12443 12442; G2 XOR 12442 2535 2534; G2 XOR 523 2944 12441;
  G2 XOR 12441 2534 3002; G2 XOR 581 3002 12220; G2 XOR 523 2534 12440; G2 XOR 2944 2534 12439;
  G2 AND 12440 12439 12438; G2 XOR 12438 2534 2533; G2 XOR 522 2943 12437; G2 XOR 12437 2533 3001;
  G2 XOR 580 3001 12216; G2 XOR 522 2533 12436; G2 XOR 2943 2533 12435; G2 AND 12436 12435 12434;
  G2 XOR 12434 2533 2532; G2 XOR 521 2942 12433; G2 XOR 12433 2532 3000; G2 XOR 579 3000 12212;
  G2 XOR 521 2532 12432; G2 XOR 2942 2532 12431; G2 AND 12432 12431 12430; G2 XOR 12430 2532 2531;
  G2 XOR 520 2941 12429; G2 XOR 12429 2531 2999; G2 XOR 578 2999 12208; G2 XOR 520 2531 12428;
  G2 XOR 2941 2531 12427; G2 AND 12428 12427 12426; G2 XOR 12426 2531 2530; G2 XOR 519 2940 12425;
  G2 XOR 12425 2530 2998; G2 XOR 577 2998 12204; G2 XOR 519 2530 12424; G2 XOR 2940 2530 12423;
  G2 AND 12424 12423 12422; G2 XOR 12422 2530 2529; G2 XOR 518 2939 12421; G2 XOR 12421 2529 2997;
  G2 XOR 576 2997 12200; G2 XOR 518 2529 12420; G2 XOR 2939 2529 12419; G2 AND 12420 12419 12418;
  G2 XOR 12418 2529 2528; G2 XOR 517 2938 12417; G2 XOR 12417 2528 2996; G2 XOR 575 2996 12196;
  G2 XOR 517 2528 12416; G2 XOR 2938 2528 12415; G2 AND 12416 12415 12414; G2 XOR 12414 2528 2527;
  G2 XOR 516 2937 12413; G2 XOR 12413 2527 2995; G2 XOR 574 2995 12192; G2 XOR 516 2527 12412;
  G2 XOR 2937 2527 12411; G2 AND 12412 12411 12410; G2 XOR 12410 2527 2526; G2 XOR 515 2936 12409;
  G2 XOR 12409 2526 2994; G2 XOR 573 2994 12188; G2 XOR 515 2526 12408; G2 XOR 2936 2526 12407;
  G2 AND 12408 12407 12406; G2 XOR 12406 2526 2525; G2 XOR 514 2935 12405; G2 XOR 12405 2525 2993;
  G2 XOR 572 2993 12184; G2 XOR 514 2525 12404; G2 XOR 2935 2525 12403; G2 AND 12404 12403 12402;
  G2 XOR 12402 2525 2524; G2 XOR 513 2934 12401; G2 XOR 12401 2524 2992; G2 XOR 571 2992 12180;
  G2 XOR 513 2524 12400; G2 XOR 2934 2524 12399; G2 AND 12400 12399 12398; G2 XOR 12398 2524 2523;
  G2 XOR 2933 2523 12395; G2 XOR 512 2933 12397; G2 XOR 12397 2523 2991; G2 XOR 570 2991 12176;
  G2 XOR 512 2523 12396; G2 AND 12396 12395 12394; G2 XOR 12394 2523 2522; G2 XOR 2932 2522 12391;
  G2 XOR 12393 2522 2990; G2 XOR 569 2990 12172; G2 XOR 511 2522 12392; G2 AND 12392 12391 12390;
  G2 XOR 12390 2522 2521; G2 XOR 2931 2521 12387; G2 XOR 12389 2521 2989; G2 XOR 568 2989 12168;
  G2 XOR 510 2521 12388; G2 AND 12388 12387 12386; G2 XOR 12386 2521 2520; G2 XOR 2930 2520 12383;
  G2 XOR 12385 2520 2988; G2 XOR 567 2988 12164; G2 XOR 509 2520 12384; G2 AND 12384 12383 12382;
  G2 XOR 12382 2520 2519; G2 XOR 2929 2519 12379; G2 XOR 12381 2519 2987; G2 XOR 566 2987 12160;
  G2 XOR 508 2519 12380; G2 AND 12380 12379 12378; G2 XOR 12378 2519 2518; G2 XOR 2928 2518 12375;
  G2 XOR 12377 2518 2986; G2 XOR 565 2986 12156; G2 XOR 507 2518 12376; G2 AND 12376 12375 12374;
  G2 XOR 12374 2518 2517; G2 XOR 2927 2517 12371; G2 XOR 12373 2517 2985; G2 XOR 564 2985 12152;
  G2 XOR 506 2517 12372; G2 AND 12372 12371 12370; G2 XOR 12370 2517 2516; G2 XOR 2926 2516 12367;
  G2 XOR 12369 2516 2984; G2 XOR 563 2984 12148; G2 XOR 505 2516 12368; G2 AND 12368 12367 12366;
  G2 XOR 12366 2516 2515; G2 XOR 2925 2515 12363; G2 XOR 12365 2515 2983; G2 XOR 562 2983 12144;
  G2 XOR 504 2515 12364; G2 AND 12364 12363 12362; G2 XOR 12362 2515 2514; G2 XOR 2924 2514 12359;
  G2 XOR 12361 2514 2982; G2 XOR 561 2982 12140; G2 XOR 503 2514 12360; G2 AND 12360 12359 12358;
  G2 XOR 12358 2514 2513; G2 XOR 2923 2513 12355; G2 XOR 12357 2513 2981; G2 XOR 560 2981 12136;
  G2 XOR 502 2513 12356; G2 AND 12356 12355 12354; G2 XOR 12354 2513 2512; G2 XOR 2922 2512 12351;
  G2 XOR 12353 2512 2980; G2 XOR 559 2980 12132; G2 XOR 501 2512 12352; G2 AND 12352 12351 12350;
  G2 XOR 12350 2512 2511; G2 XOR 2921 2511 12347; G2 XOR 12349 2511 2979; G2 XOR 558 2979 12128;
  G2 XOR 500 2511 12348; G2 AND 12348 12347 12346; G2 XOR 12346 2511 2510; G2 XOR 2920 2510 12343;
  G2 XOR 12345 2510 2978; G2 XOR 557 2978 12124; G2 XOR 499 2510 12344; G2 AND 12344 12343 12342;
  G2 XOR 12342 2510 2509; G2 XOR 2919 2509 12339; G2 XOR 12341 2509 2977; G2 XOR 556 2977 12120;
  G2 XOR 498 2509 12340; G2 AND 12340 12339 12338; G2 XOR 12338 2509 2508; G2 XOR 2918 2508 12335;
  G2 XOR 12337 2508 2976; G2 XOR 555 2976 12116; G2 XOR 497 2508 12336; G2 AND 12336 12335 12334;
  G2 XOR 12334 2508 2507; G2 XOR 12333 2507 2975; G2 XOR 554 2975 12112; G2 XOR 12332 2619 3087;
  G2 XOR 666 3087 13747; G2 AND 666 3087 2674; G2 XOR 665 2674 12110; G2 XOR 609 2619 12331;
  G2 AND 12331 12330 12329; G2 XOR 12329 2619 2618; G2 XOR 3029 2618 12326; G2 XOR 12328 2618 3086;
  G2 XOR 665 3086 12111; G2 XOR 12111 2674 3142; G2 XOR 721 3142 13748; G2 AND 721 3142 3196;
  G2 XOR 3086 2674 12109; G2 AND 12110 12109 12108; G2 XOR 12108 2674 2673; G2 XOR 664 2673 12106;
  G2 XOR 720 3196 11893; G2 XOR 608 2618 12327; G2 AND 12327 12326 12325; G2 XOR 12325 2618 2617;
  G2 XOR 3028 2617 12322; G2 XOR 12324 2617 3085; G2 XOR 664 3085 12107; G2 XOR 12107 2673 3141;
  G2 XOR 3085 2673 12105; G2 AND 12106 12105 12104; G2 XOR 12104 2673 2672; G2 XOR 663 2672 12102;
  G2 XOR 720 3141 11894; G2 XOR 11894 3196 3600; G2 XOR 775 3600 13749; G2 AND 775 3600 3249;
  G2 XOR 3141 3196 11892; G2 AND 11893 11892 11891; G2 XOR 11891 3196 3195; G2 XOR 719 3195 11889;
  G2 XOR 774 3249 11680; G2 XOR 607 2617 12323; G2 AND 12323 12322 12321; G2 XOR 12321 2617 2616;
  G2 XOR 3027 2616 12318; G2 XOR 12320 2616 3084; G2 XOR 663 3084 12103; G2 XOR 12103 2672 3140;
  G2 XOR 3084 2672 12101; G2 AND 12102 12101 12100; G2 XOR 12100 2672 2671; G2 XOR 662 2671 12098;
  G2 XOR 719 3140 11890; G2 XOR 11890 3195 3599; G2 XOR 3140 3195 11888; G2 AND 11889 11888 11887;
  G2 XOR 11887 3195 3194; G2 XOR 718 3194 11885; G2 XOR 774 3599 11681; G2 XOR 11681 3249 3653;
  G2 XOR 828 3653 13750; G2 AND 828 3653 3301; G2 XOR 3599 3249 11679; G2 AND 11680 11679 11678;
  G2 XOR 11678 3249 3248; G2 XOR 773 3248 11676; G2 XOR 827 3301 11471; G2 XOR 606 2616 12319;
  G2 AND 12319 12318 12317; G2 XOR 12317 2616 2615; G2 XOR 3026 2615 12314; G2 XOR 12316 2615 3083;
  G2 XOR 662 3083 12099; G2 XOR 12099 2671 3139; G2 XOR 3083 2671 12097; G2 AND 12098 12097 12096;
  G2 XOR 12096 2671 2670; G2 XOR 661 2670 12094; G2 XOR 718 3139 11886; G2 XOR 11886 3194 3598;
  G2 XOR 3139 3194 11884; G2 AND 11885 11884 11883; G2 XOR 11883 3194 3193; G2 XOR 717 3193 11881;
  G2 XOR 773 3598 11677; G2 XOR 11677 3248 3652; G2 XOR 3598 3248 11675; G2 AND 11676 11675 11674;
  G2 XOR 11674 3248 3247; G2 XOR 772 3247 11672; G2 XOR 827 3652 11472; G2 XOR 11472 3301 3705;
  G2 XOR 880 3705 13751; G2 AND 880 3705 3352; G2 XOR 3652 3301 11470; G2 AND 11471 11470 11469;
  G2 XOR 11469 3301 3300; G2 XOR 826 3300 11467; G2 XOR 879 3352 11266; G2 XOR 605 2615 12315;
  G2 AND 12315 12314 12313; G2 XOR 12313 2615 2614; G2 XOR 604 2614 12311; G2 XOR 3025 2614 12310;
  G2 AND 12311 12310 12309; G2 XOR 12309 2614 2613; G2 XOR 12308 2613 3081; G2 XOR 12312 2614 3082;
  G2 XOR 3024 2613 12306; G2 XOR 603 2613 12307; G2 AND 12307 12306 12305; G2 XOR 12305 2613 2612;
  G2 XOR 12304 2612 3080; G2 XOR 3023 2612 12302; G2 XOR 602 2612 12303; G2 AND 12303 12302 12301;
  G2 XOR 12301 2612 2611; G2 XOR 12300 2611 3079; G2 XOR 601 2611 12299; G2 XOR 3022 2611 12298;
  G2 AND 12299 12298 12297; G2 XOR 12297 2611 2610; G2 XOR 12296 2610 3078; G2 XOR 600 2610 12295;
  G2 XOR 3021 2610 12294; G2 AND 12295 12294 12293; G2 XOR 12293 2610 2609; G2 XOR 12292 2609 3077;
  G2 XOR 599 2609 12291; G2 XOR 3020 2609 12290; G2 AND 12291 12290 12289; G2 XOR 12289 2609 2608;
  G2 XOR 12288 2608 3076; G2 XOR 3019 2608 12286; G2 XOR 598 2608 12287; G2 AND 12287 12286 12285;
  G2 XOR 12285 2608 2607; G2 XOR 12284 2607 3075; G2 XOR 3018 2607 12282; G2 XOR 597 2607 12283;
  G2 AND 12283 12282 12281; G2 XOR 12281 2607 2606; G2 XOR 12280 2606 3074; G2 XOR 596 2606 12279;
  G2 XOR 3017 2606 12278; G2 AND 12279 12278 12277; G2 XOR 12277 2606 2605; G2 XOR 12276 2605 3073;
  G2 XOR 595 2605 12275; G2 XOR 3016 2605 12274; G2 AND 12275 12274 12273; G2 XOR 12273 2605 2604;
  G2 XOR 12272 2604 3072; G2 XOR 594 2604 12271; G2 XOR 3015 2604 12270; G2 AND 12271 12270 12269;
  G2 XOR 12269 2604 2603; G2 XOR 12268 2603 3071; G2 XOR 3014 2603 12266; G2 XOR 593 2603 12267;
  G2 AND 12267 12266 12265; G2 XOR 12265 2603 2602; G2 XOR 12264 2602 3070; G2 XOR 3013 2602 12262;
  G2 XOR 592 2602 12263; G2 AND 12263 12262 12261; G2 XOR 12261 2602 2601; G2 XOR 12260 2601 3069;
  G2 XOR 591 2601 12259; G2 XOR 3012 2601 12258; G2 AND 12259 12258 12257; G2 XOR 12257 2601 2600;
  G2 XOR 12256 2600 3068; G2 XOR 590 2600 12255; G2 XOR 3011 2600 12254; G2 AND 12255 12254 12253;
  G2 XOR 12253 2600 2599; G2 XOR 12252 2599 3067; G2 XOR 589 2599 12251; G2 XOR 3010 2599 12250;
  G2 AND 12251 12250 12249; G2 XOR 12249 2599 2598; G2 XOR 12248 2598 3066; G2 XOR 3009 2598 12246;
  G2 XOR 588 2598 12247; G2 AND 12247 12246 12245; G2 XOR 12245 2598 2597; G2 XOR 12244 2597 3065;
  G2 XOR 3008 2597 12242; G2 XOR 587 2597 12243; G2 AND 12243 12242 12241; G2 XOR 12241 2597 2596;
  G2 XOR 12240 2596 3064; G2 XOR 586 2596 12239; G2 XOR 3007 2596 12238; G2 AND 12239 12238 12237;
  G2 XOR 12237 2596 2595; G2 XOR 12236 2595 3063; G2 XOR 585 2595 12235; G2 XOR 3006 2595 12234;
  G2 AND 12235 12234 12233; G2 XOR 12233 2595 2594; G2 XOR 12232 2594 3062; G2 XOR 584 2594 12231;
  G2 XOR 3005 2594 12230; G2 AND 12231 12230 12229; G2 XOR 12229 2594 2593; G2 XOR 12228 2593 3061;
  G2 XOR 3004 2593 12226; G2 XOR 583 2593 12227; G2 AND 12227 12226 12225; G2 XOR 12225 2593 2592;
  G2 XOR 12224 2592 3060; G2 XOR 3003 2592 12222; G2 XOR 582 2592 12223; G2 AND 12223 12222 12221;
  G2 XOR 12221 2592 2591; G2 XOR 12220 2591 3059; G2 XOR 581 2591 12219; G2 XOR 3002 2591 12218;
  G2 AND 12219 12218 12217; G2 XOR 12217 2591 2590; G2 XOR 12216 2590 3058; G2 XOR 580 2590 12215;
  G2 XOR 3001 2590 12214; G2 AND 12215 12214 12213; G2 XOR 12213 2590 2589; G2 XOR 12212 2589 3057;
  G2 XOR 579 2589 12211; G2 XOR 3000 2589 12210; G2 AND 12211 12210 12209; G2 XOR 12209 2589 2588;
  G2 XOR 12208 2588 3056; G2 XOR 2999 2588 12206; G2 XOR 578 2588 12207; G2 AND 12207 12206 12205;
  G2 XOR 12205 2588 2587; G2 XOR 12204 2587 3055; G2 XOR 2998 2587 12202; G2 XOR 577 2587 12203;
  G2 AND 12203 12202 12201; G2 XOR 12201 2587 2586; G2 XOR 12200 2586 3054; G2 XOR 576 2586 12199;
  G2 XOR 2997 2586 12198; G2 AND 12199 12198 12197; G2 XOR 12197 2586 2585; G2 XOR 12196 2585 3053;
  G2 XOR 575 2585 12195; G2 XOR 2996 2585 12194; G2 AND 12195 12194 12193; G2 XOR 12193 2585 2584;
  G2 XOR 12192 2584 3052; G2 XOR 574 2584 12191; G2 XOR 2995 2584 12190; G2 AND 12191 12190 12189;
  G2 XOR 12189 2584 2583; G2 XOR 12188 2583 3051; G2 XOR 2994 2583 12186; G2 XOR 573 2583 12187;
  G2 AND 12187 12186 12185; G2 XOR 12185 2583 2582; G2 XOR 12184 2582 3050; G2 XOR 2993 2582 12182;
  G2 XOR 572 2582 12183; G2 AND 12183 12182 12181; G2 XOR 12181 2582 2581; G2 XOR 12180 2581 3049;
  G2 XOR 571 2581 12179; G2 XOR 2992 2581 12178; G2 AND 12179 12178 12177; G2 XOR 12177 2581 2580;
  G2 XOR 12176 2580 3048; G2 XOR 570 2580 12175; G2 XOR 2991 2580 12174; G2 AND 12175 12174 12173;
  G2 XOR 12173 2580 2579; G2 XOR 12172 2579 3047; G2 XOR 569 2579 12171; G2 XOR 2990 2579 12170;
  G2 AND 12171 12170 12169; G2 XOR 12169 2579 2578; G2 XOR 12168 2578 3046; G2 XOR 2989 2578 12166;
  G2 XOR 568 2578 12167; G2 AND 12167 12166 12165; G2 XOR 12165 2578 2577; G2 XOR 12164 2577 3045;
  G2 XOR 2988 2577 12162; G2 XOR 567 2577 12163; G2 AND 12163 12162 12161; G2 XOR 12161 2577 2576;
  G2 XOR 12160 2576 3044; G2 XOR 566 2576 12159; G2 XOR 2987 2576 12158; G2 AND 12159 12158 12157;
  G2 XOR 12157 2576 2575; G2 XOR 12156 2575 3043; G2 XOR 565 2575 12155; G2 XOR 2986 2575 12154;
  G2 AND 12155 12154 12153; G2 XOR 12153 2575 2574; G2 XOR 12152 2574 3042; G2 XOR 564 2574 12151;
  G2 XOR 2985 2574 12150; G2 AND 12151 12150 12149; G2 XOR 12149 2574 2573; G2 XOR 12148 2573 3041;
  G2 XOR 2984 2573 12146; G2 XOR 563 2573 12147; G2 AND 12147 12146 12145; G2 XOR 12145 2573 2572;
  G2 XOR 12144 2572 3040; G2 XOR 2983 2572 12142; G2 XOR 562 2572 12143; G2 AND 12143 12142 12141;
  G2 XOR 12141 2572 2571; G2 XOR 12140 2571 3039; G2 XOR 561 2571 12139; G2 XOR 2982 2571 12138;
  G2 AND 12139 12138 12137; G2 XOR 12137 2571 2570; G2 XOR 12136 2570 3038; G2 XOR 560 2570 12135;
  G2 XOR 2981 2570 12134; G2 AND 12135 12134 12133; G2 XOR 12133 2570 2569; G2 XOR 12132 2569 3037;
  G2 XOR 559 2569 12131; G2 XOR 2980 2569 12130; G2 AND 12131 12130 12129; G2 XOR 12129 2569 2568;
  G2 XOR 12128 2568 3036; G2 XOR 2979 2568 12126; G2 XOR 558 2568 12127; G2 AND 12127 12126 12125;
  G2 XOR 12125 2568 2567; G2 XOR 12124 2567 3035; G2 XOR 2978 2567 12122; G2 XOR 557 2567 12123;
  G2 AND 12123 12122 12121; G2 XOR 12121 2567 2566; G2 XOR 12120 2566 3034; G2 XOR 556 2566 12119;
  G2 XOR 2977 2566 12118; G2 AND 12119 12118 12117; G2 XOR 12117 2566 2565; G2 XOR 12116 2565 3033;
  G2 XOR 555 2565 12115; G2 XOR 2976 2565 12114; G2 AND 12115 12114 12113; G2 XOR 12113 2565 2564;
  G2 XOR 12112 2564 3032; G2 XOR 661 3082 12095; G2 XOR 12095 2670 3138; G2 XOR 660 3081 12091;
  G2 XOR 3082 2670 12093; G2 AND 12094 12093 12092; G2 XOR 12092 2670 2669; G2 XOR 12091 2669 3137;
  G2 XOR 660 2669 12090; G2 XOR 659 3080 12087; G2 XOR 3081 2669 12089; G2 AND 12090 12089 12088;
  G2 XOR 12088 2669 2668; G2 XOR 12087 2668 3136; G2 XOR 659 2668 12086; G2 XOR 658 3079 12083;
  G2 XOR 3080 2668 12085; G2 AND 12086 12085 12084; G2 XOR 12084 2668 2667; G2 XOR 12083 2667 3135;
  G2 XOR 658 2667 12082; G2 XOR 657 3078 12079; G2 XOR 3079 2667 12081; G2 AND 12082 12081 12080;
  G2 XOR 12080 2667 2666; G2 XOR 12079 2666 3134; G2 XOR 657 2666 12078; G2 XOR 656 3077 12075;
  G2 XOR 3078 2666 12077; G2 AND 12078 12077 12076; G2 XOR 12076 2666 2665; G2 XOR 12075 2665 3133;
  G2 XOR 656 2665 12074; G2 XOR 655 3076 12071; G2 XOR 3077 2665 12073; G2 AND 12074 12073 12072;
  G2 XOR 12072 2665 2664; G2 XOR 12071 2664 3132; G2 XOR 655 2664 12070; G2 XOR 654 3075 12067;
  G2 XOR 3076 2664 12069; G2 AND 12070 12069 12068; G2 XOR 12068 2664 2663; G2 XOR 12067 2663 3131;
  G2 XOR 654 2663 12066; G2 XOR 653 3074 12063; G2 XOR 3075 2663 12065; G2 AND 12066 12065 12064;
  G2 XOR 12064 2663 2662; G2 XOR 12063 2662 3130; G2 XOR 653 2662 12062; G2 XOR 652 3073 12059;
  G2 XOR 3074 2662 12061; G2 AND 12062 12061 12060; G2 XOR 12060 2662 2661; G2 XOR 12059 2661 3129;
  G2 XOR 652 2661 12058; G2 XOR 651 3072 12055; G2 XOR 3073 2661 12057; G2 AND 12058 12057 12056;
  G2 XOR 12056 2661 2660; G2 XOR 12055 2660 3128; G2 XOR 651 2660 12054; G2 XOR 650 3071 12051;
  G2 XOR 3072 2660 12053; G2 AND 12054 12053 12052; G2 XOR 12052 2660 2659; G2 XOR 12051 2659 3127;
  G2 XOR 650 2659 12050; G2 XOR 649 3070 12047; G2 XOR 3071 2659 12049; G2 AND 12050 12049 12048;
  G2 XOR 12048 2659 2658; G2 XOR 12047 2658 3126; G2 XOR 649 2658 12046; G2 XOR 648 3069 12043;
  G2 XOR 3070 2658 12045; G2 AND 12046 12045 12044; G2 XOR 12044 2658 2657; G2 XOR 12043 2657 3125;
  G2 XOR 648 2657 12042; G2 XOR 647 3068 12039; G2 XOR 3069 2657 12041; G2 AND 12042 12041 12040;
  G2 XOR 12040 2657 2656; G2 XOR 12039 2656 3124; G2 XOR 647 2656 12038; G2 XOR 646 3067 12035;
  G2 XOR 3068 2656 12037; G2 AND 12038 12037 12036; G2 XOR 12036 2656 2655; G2 XOR 12035 2655 3123;
  G2 XOR 646 2655 12034; G2 XOR 645 3066 12031; G2 XOR 3067 2655 12033; G2 AND 12034 12033 12032;
  G2 XOR 12032 2655 2654; G2 XOR 12031 2654 3122; G2 XOR 645 2654 12030; G2 XOR 644 3065 12027;
  G2 XOR 3066 2654 12029; G2 AND 12030 12029 12028; G2 XOR 12028 2654 2653; G2 XOR 12027 2653 3121;
  G2 XOR 644 2653 12026; G2 XOR 643 3064 12023; G2 XOR 3065 2653 12025; G2 AND 12026 12025 12024;
  G2 XOR 12024 2653 2652; G2 XOR 12023 2652 3120; G2 XOR 643 2652 12022; G2 XOR 642 3063 12019;
  G2 XOR 3064 2652 12021; G2 AND 12022 12021 12020; G2 XOR 12020 2652 2651; G2 XOR 12019 2651 3119;
  G2 XOR 642 2651 12018; G2 XOR 641 3062 12015; G2 XOR 3063 2651 12017; G2 AND 12018 12017 12016;
  G2 XOR 12016 2651 2650; G2 XOR 12015 2650 3118; G2 XOR 641 2650 12014; G2 XOR 640 3061 12011;
  G2 XOR 3062 2650 12013; G2 AND 12014 12013 12012; G2 XOR 12012 2650 2649; G2 XOR 12011 2649 3117;
  G2 XOR 640 2649 12010; G2 XOR 639 3060 12007; G2 XOR 3061 2649 12009; G2 AND 12010 12009 12008;
  G2 XOR 12008 2649 2648; G2 XOR 12007 2648 3116; G2 XOR 639 2648 12006; G2 XOR 638 3059 12003;
  G2 XOR 3060 2648 12005; G2 AND 12006 12005 12004; G2 XOR 12004 2648 2647; G2 XOR 12003 2647 3115;
  G2 XOR 638 2647 12002; G2 XOR 637 3058 11999; G2 XOR 3059 2647 12001; G2 AND 12002 12001 12000;
  G2 XOR 12000 2647 2646; G2 XOR 11999 2646 3114; G2 XOR 637 2646 11998; G2 XOR 636 3057 11995;
  G2 XOR 3058 2646 11997; G2 AND 11998 11997 11996; G2 XOR 11996 2646 2645; G2 XOR 11995 2645 3113;
  G2 XOR 636 2645 11994; G2 XOR 635 3056 11991; G2 XOR 3057 2645 11993; G2 AND 11994 11993 11992;
  G2 XOR 11992 2645 2644; G2 XOR 11991 2644 3112; G2 XOR 635 2644 11990; G2 XOR 634 3055 11987;
  G2 XOR 3056 2644 11989; G2 AND 11990 11989 11988; G2 XOR 11988 2644 2643; G2 XOR 11987 2643 3111;
  G2 XOR 634 2643 11986; G2 XOR 633 3054 11983; G2 XOR 3055 2643 11985; G2 AND 11986 11985 11984;
  G2 XOR 11984 2643 2642; G2 XOR 11983 2642 3110; G2 XOR 633 2642 11982; G2 XOR 632 3053 11979;
  G2 XOR 3054 2642 11981; G2 AND 11982 11981 11980; G2 XOR 11980 2642 2641; G2 XOR 11979 2641 3109;
  G2 XOR 632 2641 11978; G2 XOR 631 3052 11975; G2 XOR 3053 2641 11977; G2 AND 11978 11977 11976;
  G2 XOR 11976 2641 2640; G2 XOR 11975 2640 3108; G2 XOR 631 2640 11974; G2 XOR 630 3051 11971;
  G2 XOR 3052 2640 11973; G2 AND 11974 11973 11972; G2 XOR 11972 2640 2639; G2 XOR 11971 2639 3107;
  G2 XOR 630 2639 11970; G2 XOR 629 3050 11967; G2 XOR 3051 2639 11969; G2 AND 11970 11969 11968;
  G2 XOR 11968 2639 2638; G2 XOR 11967 2638 3106; G2 XOR 629 2638 11966; G2 XOR 628 3049 11963;
  G2 XOR 3050 2638 11965; G2 AND 11966 11965 11964; G2 XOR 11964 2638 2637; G2 XOR 11963 2637 3105;
  G2 XOR 628 2637 11962; G2 XOR 627 3048 11959; G2 XOR 3049 2637 11961; G2 AND 11962 11961 11960;
  G2 XOR 11960 2637 2636; G2 XOR 11959 2636 3104; G2 XOR 627 2636 11958; G2 XOR 626 3047 11955;
  G2 XOR 3048 2636 11957; G2 AND 11958 11957 11956; G2 XOR 11956 2636 2635; G2 XOR 11955 2635 3103;
  G2 XOR 626 2635 11954; G2 XOR 625 3046 11951; G2 XOR 3047 2635 11953; G2 AND 11954 11953 11952;
  G2 XOR 11952 2635 2634; G2 XOR 11951 2634 3102; G2 XOR 625 2634 11950; G2 XOR 624 3045 11947;
  G2 XOR 3046 2634 11949; G2 AND 11950 11949 11948; G2 XOR 11948 2634 2633; G2 XOR 11947 2633 3101;
  G2 XOR 624 2633 11946; G2 XOR 623 3044 11943; G2 XOR 3045 2633 11945; G2 AND 11946 11945 11944;
  G2 XOR 11944 2633 2632; G2 XOR 11943 2632 3100; G2 XOR 623 2632 11942; G2 XOR 622 3043 11939;
  G2 XOR 3044 2632 11941; G2 AND 11942 11941 11940; G2 XOR 11940 2632 2631; G2 XOR 11939 2631 3099;
  G2 XOR 622 2631 11938; G2 XOR 621 3042 11935; G2 XOR 3043 2631 11937; G2 AND 11938 11937 11936;
  G2 XOR 11936 2631 2630; G2 XOR 11935 2630 3098; G2 XOR 621 2630 11934; G2 XOR 620 3041 11931;
  G2 XOR 3042 2630 11933; G2 AND 11934 11933 11932; G2 XOR 11932 2630 2629; G2 XOR 11931 2629 3097;
  G2 XOR 620 2629 11930; G2 XOR 619 3040 11927; G2 XOR 3041 2629 11929; G2 AND 11930 11929 11928;
  G2 XOR 11928 2629 2628; G2 XOR 11927 2628 3096; G2 XOR 619 2628 11926; G2 XOR 618 3039 11923;
  G2 XOR 3040 2628 11925; G2 AND 11926 11925 11924; G2 XOR 11924 2628 2627; G2 XOR 11923 2627 3095;
  G2 XOR 618 2627 11922; G2 XOR 617 3038 11919; G2 XOR 3039 2627 11921; G2 AND 11922 11921 11920;
  G2 XOR 11920 2627 2626; G2 XOR 11919 2626 3094; G2 XOR 617 2626 11918; G2 XOR 616 3037 11915;
  G2 XOR 3038 2626 11917; G2 AND 11918 11917 11916; G2 XOR 11916 2626 2625; G2 XOR 11915 2625 3093;
  G2 XOR 616 2625 11914; G2 XOR 615 3036 11911; G2 XOR 3037 2625 11913; G2 AND 11914 11913 11912;
  G2 XOR 11912 2625 2624; G2 XOR 11911 2624 3092; G2 XOR 615 2624 11910; G2 XOR 614 3035 11907;
  G2 XOR 3036 2624 11909; G2 AND 11910 11909 11908; G2 XOR 11908 2624 2623; G2 XOR 11907 2623 3091;
  G2 XOR 614 2623 11906; G2 XOR 613 3034 11903; G2 XOR 3035 2623 11905; G2 AND 11906 11905 11904;
  G2 XOR 11904 2623 2622; G2 XOR 11903 2622 3090; G2 XOR 613 2622 11902; G2 XOR 612 3033 11899;
  G2 XOR 3034 2622 11901; G2 AND 11902 11901 11900; G2 XOR 11900 2622 2621; G2 XOR 11899 2621 3089;
  G2 XOR 612 2621 11898; G2 XOR 611 3032 11895; G2 XOR 3033 2621 11897; G2 AND 11898 11897 11896;
  G2 XOR 11896 2621 2620; G2 XOR 11895 2620 3088; G2 XOR 717 3138 11882; G2 XOR 11882 3193 3597;
  G2 XOR 3138 3193 11880; G2 AND 11881 11880 11879; G2 XOR 11879 3193 3192; G2 XOR 716 3137 11878;
  G2 XOR 11878 3192 3596; G2 XOR 3137 3192 11876; G2 XOR 716 3192 11877; G2 AND 11877 11876 11875;
  G2 XOR 11875 3192 3191; G2 XOR 715 3136 11874; G2 XOR 11874 3191 3595; G2 XOR 3136 3191 11872;
  G2 XOR 715 3191 11873; G2 AND 11873 11872 11871; G2 XOR 11871 3191 3190; G2 XOR 714 3135 11870;
  G2 XOR 11870 3190 3594; G2 XOR 3135 3190 11868; G2 XOR 714 3190 11869; G2 AND 11869 11868 11867;
  G2 XOR 11867 3190 3189; G2 XOR 3134 3189 11864; G2 XOR 713 3134 11866; G2 XOR 11866 3189 3593;
  G2 XOR 713 3189 11865; G2 AND 11865 11864 11863; G2 XOR 11863 3189 3188; G2 XOR 712 3188 11861;
  G2 XOR 712 3133 11862; G2 XOR 11862 3188 3592; G2 XOR 3133 3188 11860; G2 AND 11861 11860 11859;
  G2 XOR 11859 3188 3187; G2 XOR 711 3187 11857; G2 XOR 711 3132 11858; G2 XOR 11858 3187 3591;
  G2 XOR 3132 3187 11856; G2 AND 11857 11856 11855; G2 XOR 11855 3187 3186; G2 XOR 710 3186 11853;
  G2 XOR 710 3131 11854; G2 XOR 11854 3186 3590; G2 XOR 3131 3186 11852; G2 AND 11853 11852 11851;
  G2 XOR 11851 3186 3185; G2 XOR 709 3185 11849; G2 XOR 709 3130 11850; G2 XOR 11850 3185 3589;
  G2 XOR 3130 3185 11848; G2 AND 11849 11848 11847; G2 XOR 11847 3185 3184; G2 XOR 708 3184 11845;
  G2 XOR 708 3129 11846; G2 XOR 11846 3184 3588; G2 XOR 3129 3184 11844; G2 AND 11845 11844 11843;
  G2 XOR 11843 3184 3183; G2 XOR 707 3183 11841; G2 XOR 707 3128 11842; G2 XOR 11842 3183 3587;
  G2 XOR 3128 3183 11840; G2 AND 11841 11840 11839; G2 XOR 11839 3183 3182; G2 XOR 706 3182 11837;
  G2 XOR 706 3127 11838; G2 XOR 11838 3182 3586; G2 XOR 3127 3182 11836; G2 AND 11837 11836 11835;
  G2 XOR 11835 3182 3181; G2 XOR 705 3181 11833; G2 XOR 705 3126 11834; G2 XOR 11834 3181 3585;
  G2 XOR 760 3585 11625; G2 XOR 3126 3181 11832; G2 AND 11833 11832 11831; G2 XOR 11831 3181 3180;
  G2 XOR 704 3180 11829; G2 XOR 704 3125 11830; G2 XOR 11830 3180 3584; G2 XOR 3125 3180 11828;
  G2 AND 11829 11828 11827; G2 XOR 11827 3180 3179; G2 XOR 703 3179 11825; G2 XOR 703 3124 11826;
  G2 XOR 11826 3179 3583; G2 XOR 3124 3179 11824; G2 AND 11825 11824 11823; G2 XOR 11823 3179 3178;
  G2 XOR 702 3178 11821; G2 XOR 702 3123 11822; G2 XOR 11822 3178 3582; G2 XOR 3123 3178 11820;
  G2 AND 11821 11820 11819; G2 XOR 11819 3178 3177; G2 XOR 701 3177 11817; G2 XOR 701 3122 11818;
  G2 XOR 11818 3177 3581; G2 XOR 3122 3177 11816; G2 AND 11817 11816 11815; G2 XOR 11815 3177 3176;
  G2 XOR 700 3176 11813; G2 XOR 700 3121 11814; G2 XOR 11814 3176 3580; G2 XOR 3121 3176 11812;
  G2 AND 11813 11812 11811; G2 XOR 11811 3176 3175; G2 XOR 699 3175 11809; G2 XOR 699 3120 11810;
  G2 XOR 11810 3175 3579; G2 XOR 3120 3175 11808; G2 AND 11809 11808 11807; G2 XOR 11807 3175 3174;
  G2 XOR 698 3174 11805; G2 XOR 698 3119 11806; G2 XOR 11806 3174 3578; G2 XOR 3119 3174 11804;
  G2 AND 11805 11804 11803; G2 XOR 11803 3174 3173; G2 XOR 697 3173 11801; G2 XOR 697 3118 11802;
  G2 XOR 11802 3173 3577; G2 XOR 3118 3173 11800; G2 AND 11801 11800 11799; G2 XOR 11799 3173 3172;
  G2 XOR 696 3172 11797; G2 XOR 696 3117 11798; G2 XOR 11798 3172 3576; G2 XOR 3117 3172 11796;
  G2 AND 11797 11796 11795; G2 XOR 11795 3172 3171; G2 XOR 695 3171 11793; G2 XOR 695 3116 11794;
  G2 XOR 11794 3171 3575; G2 XOR 3116 3171 11792; G2 AND 11793 11792 11791; G2 XOR 11791 3171 3170;
  G2 XOR 694 3170 11789; G2 XOR 694 3115 11790; G2 XOR 11790 3170 3574; G2 XOR 3115 3170 11788;
  G2 AND 11789 11788 11787; G2 XOR 11787 3170 3169; G2 XOR 693 3169 11785; G2 XOR 693 3114 11786;
  G2 XOR 11786 3169 3573; G2 XOR 3114 3169 11784; G2 AND 11785 11784 11783; G2 XOR 11783 3169 3168;
  G2 XOR 692 3168 11781; G2 XOR 692 3113 11782; G2 XOR 11782 3168 3572; G2 XOR 3113 3168 11780;
  G2 AND 11781 11780 11779; G2 XOR 11779 3168 3167; G2 XOR 691 3167 11777; G2 XOR 691 3112 11778;
  G2 XOR 11778 3167 3571; G2 XOR 3112 3167 11776; G2 AND 11777 11776 11775; G2 XOR 11775 3167 3166;
  G2 XOR 690 3166 11773; G2 XOR 690 3111 11774; G2 XOR 11774 3166 3570; G2 XOR 3111 3166 11772;
  G2 AND 11773 11772 11771; G2 XOR 11771 3166 3165; G2 XOR 689 3165 11769; G2 XOR 689 3110 11770;
  G2 XOR 11770 3165 3569; G2 XOR 3110 3165 11768; G2 AND 11769 11768 11767; G2 XOR 11767 3165 3164;
  G2 XOR 688 3164 11765; G2 XOR 688 3109 11766; G2 XOR 11766 3164 3568; G2 XOR 3109 3164 11764;
  G2 AND 11765 11764 11763; G2 XOR 11763 3164 3163; G2 XOR 687 3163 11761; G2 XOR 687 3108 11762;
  G2 XOR 11762 3163 3567; G2 XOR 3108 3163 11760; G2 AND 11761 11760 11759; G2 XOR 11759 3163 3162;
  G2 XOR 686 3162 11757; G2 XOR 686 3107 11758; G2 XOR 11758 3162 3566; G2 XOR 3107 3162 11756;
  G2 AND 11757 11756 11755; G2 XOR 11755 3162 3161; G2 XOR 685 3161 11753; G2 XOR 685 3106 11754;
  G2 XOR 11754 3161 3565; G2 XOR 3106 3161 11752; G2 AND 11753 11752 11751; G2 XOR 11751 3161 3160;
  G2 XOR 684 3160 11749; G2 XOR 684 3105 11750; G2 XOR 11750 3160 3564; G2 XOR 3105 3160 11748;
  G2 AND 11749 11748 11747; G2 XOR 11747 3160 3159; G2 XOR 683 3159 11745; G2 XOR 683 3104 11746;
  G2 XOR 11746 3159 3563; G2 XOR 3104 3159 11744; G2 AND 11745 11744 11743; G2 XOR 11743 3159 3158;
  G2 XOR 682 3158 11741; G2 XOR 682 3103 11742; G2 XOR 11742 3158 3562; G2 XOR 3103 3158 11740;
  G2 AND 11741 11740 11739; G2 XOR 11739 3158 3157; G2 XOR 681 3157 11737; G2 XOR 681 3102 11738;
  G2 XOR 11738 3157 3561; G2 XOR 3102 3157 11736; G2 AND 11737 11736 11735; G2 XOR 11735 3157 3156;
  G2 XOR 680 3156 11733; G2 XOR 680 3101 11734; G2 XOR 11734 3156 3560; G2 XOR 3101 3156 11732;
  G2 AND 11733 11732 11731; G2 XOR 11731 3156 3155; G2 XOR 679 3155 11729; G2 XOR 679 3100 11730;
  G2 XOR 11730 3155 3559; G2 XOR 3100 3155 11728; G2 AND 11729 11728 11727; G2 XOR 11727 3155 3154;
  G2 XOR 678 3154 11725; G2 XOR 678 3099 11726; G2 XOR 11726 3154 3558; G2 XOR 3099 3154 11724;
  G2 AND 11725 11724 11723; G2 XOR 11723 3154 3153; G2 XOR 677 3153 11721; G2 XOR 677 3098 11722;
  G2 XOR 11722 3153 3557; G2 XOR 3098 3153 11720; G2 AND 11721 11720 11719; G2 XOR 11719 3153 3152;
  G2 XOR 676 3152 11717; G2 XOR 676 3097 11718; G2 XOR 11718 3152 3556; G2 XOR 3097 3152 11716;
  G2 AND 11717 11716 11715; G2 XOR 11715 3152 3151; G2 XOR 675 3151 11713; G2 XOR 675 3096 11714;
  G2 XOR 11714 3151 3555; G2 XOR 3096 3151 11712; G2 AND 11713 11712 11711; G2 XOR 11711 3151 3150;
  G2 XOR 674 3150 11709; G2 XOR 674 3095 11710; G2 XOR 11710 3150 3554; G2 XOR 3095 3150 11708;
  G2 AND 11709 11708 11707; G2 XOR 11707 3150 3149; G2 XOR 673 3149 11705; G2 XOR 673 3094 11706;
  G2 XOR 11706 3149 3553; G2 XOR 3094 3149 11704; G2 AND 11705 11704 11703; G2 XOR 11703 3149 3148;
  G2 XOR 672 3148 11701; G2 XOR 672 3093 11702; G2 XOR 11702 3148 3552; G2 XOR 3093 3148 11700;
  G2 AND 11701 11700 11699; G2 XOR 11699 3148 3147; G2 XOR 671 3147 11697; G2 XOR 671 3092 11698;
  G2 XOR 11698 3147 3551; G2 XOR 3092 3147 11696; G2 AND 11697 11696 11695; G2 XOR 11695 3147 3146;
  G2 XOR 670 3146 11693; G2 XOR 670 3091 11694; G2 XOR 11694 3146 3550; G2 XOR 3091 3146 11692;
  G2 AND 11693 11692 11691; G2 XOR 11691 3146 3145; G2 XOR 669 3145 11689; G2 XOR 669 3090 11690;
  G2 XOR 11690 3145 3549; G2 XOR 3090 3145 11688; G2 AND 11689 11688 11687; G2 XOR 11687 3145 3144;
  G2 XOR 668 3144 11685; G2 XOR 668 3089 11686; G2 XOR 11686 3144 3548; G2 XOR 3089 3144 11684;
  G2 AND 11685 11684 11683; G2 XOR 11683 3144 3143; G2 XOR 667 3088 11682; G2 XOR 11682 3143 3547;
  G2 XOR 772 3597 11673; G2 XOR 11673 3247 3651; G2 XOR 771 3596 11669; G2 XOR 3597 3247 11671;
  G2 AND 11672 11671 11670; G2 XOR 11670 3247 3246; G2 XOR 11669 3246 3650; G2 XOR 771 3246 11668;
  G2 XOR 770 3595 11665; G2 XOR 3596 3246 11667; G2 AND 11668 11667 11666; G2 XOR 11666 3246 3245;
  G2 XOR 11665 3245 3649; G2 XOR 770 3245 11664; G2 XOR 769 3594 11661; G2 XOR 3595 3245 11663;
  G2 AND 11664 11663 11662; G2 XOR 11662 3245 3244; G2 XOR 11661 3244 3648; G2 XOR 769 3244 11660;
  G2 XOR 768 3593 11657; G2 XOR 3594 3244 11659; G2 AND 11660 11659 11658; G2 XOR 11658 3244 3243;
  G2 XOR 11657 3243 3647; G2 XOR 768 3243 11656; G2 XOR 767 3592 11653; G2 XOR 3593 3243 11655;
  G2 AND 11656 11655 11654; G2 XOR 11654 3243 3242; G2 XOR 11653 3242 3646; G2 XOR 767 3242 11652;
  G2 XOR 766 3591 11649; G2 XOR 3592 3242 11651; G2 AND 11652 11651 11650; G2 XOR 11650 3242 3241;
  G2 XOR 11649 3241 3645; G2 XOR 766 3241 11648; G2 XOR 765 3590 11645; G2 XOR 3591 3241 11647;
  G2 AND 11648 11647 11646; G2 XOR 11646 3241 3240; G2 XOR 11645 3240 3644; G2 XOR 765 3240 11644;
  G2 XOR 764 3589 11641; G2 XOR 3590 3240 11643; G2 AND 11644 11643 11642; G2 XOR 11642 3240 3239;
  G2 XOR 11641 3239 3643; G2 XOR 764 3239 11640; G2 XOR 763 3588 11637; G2 XOR 3589 3239 11639;
  G2 AND 11640 11639 11638; G2 XOR 11638 3239 3238; G2 XOR 11637 3238 3642; G2 XOR 763 3238 11636;
  G2 XOR 762 3587 11633; G2 XOR 3588 3238 11635; G2 AND 11636 11635 11634; G2 XOR 11634 3238 3237;
  G2 XOR 11633 3237 3641; G2 XOR 762 3237 11632; G2 XOR 761 3586 11629; G2 XOR 3587 3237 11631;
  G2 AND 11632 11631 11630; G2 XOR 11630 3237 3236; G2 XOR 11629 3236 3640; G2 XOR 761 3236 11628;
  G2 XOR 3586 3236 11627; G2 AND 11628 11627 11626; G2 XOR 11626 3236 3235; G2 XOR 11625 3235 3639;
  G2 XOR 3585 3235 11623; G2 XOR 760 3235 11624; G2 AND 11624 11623 11622; G2 XOR 11622 3235 3234;
  G2 XOR 759 3584 11621; G2 XOR 11621 3234 3638; G2 XOR 3584 3234 11619; G2 XOR 759 3234 11620;
  G2 AND 11620 11619 11618; G2 XOR 11618 3234 3233; G2 XOR 758 3583 11617; G2 XOR 11617 3233 3637;
  G2 XOR 3583 3233 11615; G2 XOR 758 3233 11616; G2 AND 11616 11615 11614; G2 XOR 11614 3233 3232;
  G2 XOR 757 3582 11613; G2 XOR 11613 3232 3636; G2 XOR 3582 3232 11611; G2 XOR 757 3232 11612;
  G2 AND 11612 11611 11610; G2 XOR 11610 3232 3231; G2 XOR 756 3581 11609; G2 XOR 11609 3231 3635;
  G2 XOR 3581 3231 11607; G2 XOR 756 3231 11608; G2 AND 11608 11607 11606; G2 XOR 11606 3231 3230;
  G2 XOR 755 3580 11605; G2 XOR 11605 3230 3634; G2 XOR 3580 3230 11603; G2 XOR 755 3230 11604;
  G2 AND 11604 11603 11602; G2 XOR 11602 3230 3229; G2 XOR 754 3579 11601; G2 XOR 11601 3229 3633;
  G2 XOR 3579 3229 11599; G2 XOR 754 3229 11600; G2 AND 11600 11599 11598; G2 XOR 11598 3229 3228;
  G2 XOR 753 3578 11597; G2 XOR 11597 3228 3632; G2 XOR 3578 3228 11595; G2 XOR 753 3228 11596;
  G2 AND 11596 11595 11594; G2 XOR 11594 3228 3227; G2 XOR 752 3577 11593; G2 XOR 11593 3227 3631;
  G2 XOR 3577 3227 11591; G2 XOR 752 3227 11592; G2 AND 11592 11591 11590; G2 XOR 11590 3227 3226;
  G2 XOR 751 3576 11589; G2 XOR 11589 3226 3630; G2 XOR 3576 3226 11587; G2 XOR 751 3226 11588;
  G2 AND 11588 11587 11586; G2 XOR 11586 3226 3225; G2 XOR 750 3575 11585; G2 XOR 11585 3225 3629;
  G2 XOR 3575 3225 11583; G2 XOR 750 3225 11584; G2 AND 11584 11583 11582; G2 XOR 11582 3225 3224;
  G2 XOR 749 3574 11581; G2 XOR 11581 3224 3628; G2 XOR 3574 3224 11579; G2 XOR 749 3224 11580;
  G2 AND 11580 11579 11578; G2 XOR 11578 3224 3223; G2 XOR 748 3573 11577; G2 XOR 11577 3223 3627;
  G2 XOR 3573 3223 11575; G2 XOR 748 3223 11576; G2 AND 11576 11575 11574; G2 XOR 11574 3223 3222;
  G2 XOR 747 3572 11573; G2 XOR 11573 3222 3626; G2 XOR 3572 3222 11571; G2 XOR 747 3222 11572;
  G2 AND 11572 11571 11570; G2 XOR 11570 3222 3221; G2 XOR 746 3571 11569; G2 XOR 11569 3221 3625;
  G2 XOR 3571 3221 11567; G2 XOR 746 3221 11568; G2 AND 11568 11567 11566; G2 XOR 11566 3221 3220;
  G2 XOR 745 3570 11565; G2 XOR 11565 3220 3624; G2 XOR 3570 3220 11563; G2 XOR 745 3220 11564;
  G2 AND 11564 11563 11562; G2 XOR 11562 3220 3219; G2 XOR 744 3569 11561; G2 XOR 11561 3219 3623;
  G2 XOR 3569 3219 11559; G2 XOR 744 3219 11560; G2 AND 11560 11559 11558; G2 XOR 11558 3219 3218;
  G2 XOR 743 3568 11557; G2 XOR 11557 3218 3622; G2 XOR 3568 3218 11555; G2 XOR 743 3218 11556;
  G2 AND 11556 11555 11554; G2 XOR 11554 3218 3217; G2 XOR 742 3567 11553; G2 XOR 11553 3217 3621;
  G2 XOR 3567 3217 11551; G2 XOR 742 3217 11552; G2 AND 11552 11551 11550; G2 XOR 11550 3217 3216;
  G2 XOR 741 3566 11549; G2 XOR 11549 3216 3620; G2 XOR 3566 3216 11547; G2 XOR 741 3216 11548;
  G2 AND 11548 11547 11546; G2 XOR 11546 3216 3215; G2 XOR 740 3565 11545; G2 XOR 11545 3215 3619;
  G2 XOR 3565 3215 11543; G2 XOR 740 3215 11544; G2 AND 11544 11543 11542; G2 XOR 11542 3215 3214;
  G2 XOR 739 3564 11541; G2 XOR 11541 3214 3618; G2 XOR 3564 3214 11539; G2 XOR 739 3214 11540;
  G2 AND 11540 11539 11538; G2 XOR 11538 3214 3213; G2 XOR 738 3563 11537; G2 XOR 11537 3213 3617;
  G2 XOR 3563 3213 11535; G2 XOR 738 3213 11536; G2 AND 11536 11535 11534; G2 XOR 11534 3213 3212;
  G2 XOR 737 3562 11533; G2 XOR 11533 3212 3616; G2 XOR 3562 3212 11531; G2 XOR 737 3212 11532;
  G2 AND 11532 11531 11530; G2 XOR 11530 3212 3211; G2 XOR 736 3561 11529; G2 XOR 11529 3211 3615;
  G2 XOR 3561 3211 11527; G2 XOR 736 3211 11528; G2 AND 11528 11527 11526; G2 XOR 11526 3211 3210;
  G2 XOR 735 3560 11525; G2 XOR 11525 3210 3614; G2 XOR 3560 3210 11523; G2 XOR 735 3210 11524;
  G2 AND 11524 11523 11522; G2 XOR 11522 3210 3209; G2 XOR 734 3559 11521; G2 XOR 11521 3209 3613;
  G2 XOR 3559 3209 11519; G2 XOR 734 3209 11520; G2 AND 11520 11519 11518; G2 XOR 11518 3209 3208;
  G2 XOR 733 3558 11517; G2 XOR 11517 3208 3612; G2 XOR 3558 3208 11515; G2 XOR 733 3208 11516;
  G2 AND 11516 11515 11514; G2 XOR 11514 3208 3207; G2 XOR 732 3557 11513; G2 XOR 11513 3207 3611;
  G2 XOR 3557 3207 11511; G2 XOR 732 3207 11512; G2 AND 11512 11511 11510; G2 XOR 11510 3207 3206;
  G2 XOR 731 3556 11509; G2 XOR 11509 3206 3610; G2 XOR 3556 3206 11507; G2 XOR 731 3206 11508;
  G2 AND 11508 11507 11506; G2 XOR 11506 3206 3205; G2 XOR 730 3555 11505; G2 XOR 11505 3205 3609;
  G2 XOR 3555 3205 11503; G2 XOR 730 3205 11504; G2 AND 11504 11503 11502; G2 XOR 11502 3205 3204;
  G2 XOR 729 3554 11501; G2 XOR 11501 3204 3608; G2 XOR 3554 3204 11499; G2 XOR 729 3204 11500;
  G2 AND 11500 11499 11498; G2 XOR 11498 3204 3203; G2 XOR 728 3553 11497; G2 XOR 11497 3203 3607;
  G2 XOR 3553 3203 11495; G2 XOR 728 3203 11496; G2 AND 11496 11495 11494; G2 XOR 11494 3203 3202;
  G2 XOR 727 3552 11493; G2 XOR 11493 3202 3606; G2 XOR 3552 3202 11491; G2 XOR 727 3202 11492;
  G2 AND 11492 11491 11490; G2 XOR 11490 3202 3201; G2 XOR 726 3551 11489; G2 XOR 11489 3201 3605;
  G2 XOR 3551 3201 11487; G2 XOR 726 3201 11488; G2 AND 11488 11487 11486; G2 XOR 11486 3201 3200;
  G2 XOR 725 3550 11485; G2 XOR 11485 3200 3604; G2 XOR 3550 3200 11483; G2 XOR 725 3200 11484;
  G2 AND 11484 11483 11482; G2 XOR 11482 3200 3199; G2 XOR 724 3549 11481; G2 XOR 11481 3199 3603;
  G2 XOR 3549 3199 11479; G2 XOR 724 3199 11480; G2 AND 11480 11479 11478; G2 XOR 11478 3199 3198;
  G2 XOR 723 3548 11477; G2 XOR 11477 3198 3602; G2 XOR 3548 3198 11475; G2 XOR 723 3198 11476;
  G2 AND 11476 11475 11474; G2 XOR 11474 3198 3197; G2 XOR 722 3547 11473; G2 XOR 11473 3197 3601;
  G2 XOR 826 3651 11468; G2 XOR 11468 3300 3704; G2 XOR 3651 3300 11466; G2 AND 11467 11466 11465;
  G2 XOR 11465 3300 3299; G2 XOR 825 3299 11463; G2 XOR 825 3650 11464; G2 XOR 11464 3299 3703;
  G2 XOR 3650 3299 11462; G2 AND 11463 11462 11461; G2 XOR 11461 3299 3298; G2 XOR 824 3298 11459;
  G2 XOR 824 3649 11460; G2 XOR 11460 3298 3702; G2 XOR 3649 3298 11458; G2 AND 11459 11458 11457;
  G2 XOR 11457 3298 3297; G2 XOR 823 3297 11455; G2 XOR 823 3648 11456; G2 XOR 11456 3297 3701;
  G2 XOR 3648 3297 11454; G2 AND 11455 11454 11453; G2 XOR 11453 3297 3296; G2 XOR 822 3296 11451;
  G2 XOR 822 3647 11452; G2 XOR 11452 3296 3700; G2 XOR 3647 3296 11450; G2 AND 11451 11450 11449;
  G2 XOR 11449 3296 3295; G2 XOR 821 3295 11447; G2 XOR 821 3646 11448; G2 XOR 11448 3295 3699;
  G2 XOR 3646 3295 11446; G2 AND 11447 11446 11445; G2 XOR 11445 3295 3294; G2 XOR 820 3294 11443;
  G2 XOR 820 3645 11444; G2 XOR 11444 3294 3698; G2 XOR 3645 3294 11442; G2 AND 11443 11442 11441;
  G2 XOR 11441 3294 3293; G2 XOR 819 3293 11439; G2 XOR 819 3644 11440; G2 XOR 11440 3293 3697;
  G2 XOR 3644 3293 11438; G2 AND 11439 11438 11437; G2 XOR 11437 3293 3292; G2 XOR 818 3292 11435;
  G2 XOR 818 3643 11436; G2 XOR 11436 3292 3696; G2 XOR 3643 3292 11434; G2 AND 11435 11434 11433;
  G2 XOR 11433 3292 3291; G2 XOR 817 3291 11431; G2 XOR 817 3642 11432; G2 XOR 11432 3291 3695;
  G2 XOR 3642 3291 11430; G2 AND 11431 11430 11429; G2 XOR 11429 3291 3290; G2 XOR 816 3290 11427;
  G2 XOR 816 3641 11428; G2 XOR 11428 3290 3694; G2 XOR 3641 3290 11426; G2 AND 11427 11426 11425;
  G2 XOR 11425 3290 3289; G2 XOR 815 3289 11423; G2 XOR 815 3640 11424; G2 XOR 11424 3289 3693;
  G2 XOR 3640 3289 11422; G2 AND 11423 11422 11421; G2 XOR 11421 3289 3288; G2 XOR 814 3288 11419;
  G2 XOR 814 3639 11420; G2 XOR 11420 3288 3692; G2 XOR 3639 3288 11418; G2 AND 11419 11418 11417;
  G2 XOR 11417 3288 3287; G2 XOR 813 3287 11415; G2 XOR 813 3638 11416; G2 XOR 11416 3287 3691;
  G2 XOR 3638 3287 11414; G2 AND 11415 11414 11413; G2 XOR 11413 3287 3286; G2 XOR 812 3286 11411;
  G2 XOR 812 3637 11412; G2 XOR 11412 3286 3690; G2 XOR 3637 3286 11410; G2 AND 11411 11410 11409;
  G2 XOR 11409 3286 3285; G2 XOR 811 3285 11407; G2 XOR 811 3636 11408; G2 XOR 11408 3285 3689;
  G2 XOR 3636 3285 11406; G2 AND 11407 11406 11405; G2 XOR 11405 3285 3284; G2 XOR 810 3284 11403;
  G2 XOR 810 3635 11404; G2 XOR 11404 3284 3688; G2 XOR 863 3688 11203; G2 XOR 3635 3284 11402;
  G2 AND 11403 11402 11401; G2 XOR 11401 3284 3283; G2 XOR 809 3283 11399; G2 XOR 809 3634 11400;
  G2 XOR 11400 3283 3687; G2 XOR 3634 3283 11398; G2 AND 11399 11398 11397; G2 XOR 11397 3283 3282;
  G2 XOR 808 3282 11395; G2 XOR 808 3633 11396; G2 XOR 11396 3282 3686; G2 XOR 3633 3282 11394;
  G2 AND 11395 11394 11393; G2 XOR 11393 3282 3281; G2 XOR 807 3281 11391; G2 XOR 807 3632 11392;
  G2 XOR 11392 3281 3685; G2 XOR 806 3631 11388; G2 XOR 3632 3281 11390; G2 AND 11391 11390 11389;
  G2 XOR 11389 3281 3280; G2 XOR 11388 3280 3684; G2 XOR 806 3280 11387; G2 XOR 805 3630 11384;
  G2 XOR 3631 3280 11386; G2 AND 11387 11386 11385; G2 XOR 11385 3280 3279; G2 XOR 11384 3279 3683;
  G2 XOR 805 3279 11383; G2 XOR 804 3629 11380; G2 XOR 3630 3279 11382; G2 AND 11383 11382 11381;
  G2 XOR 11381 3279 3278; G2 XOR 11380 3278 3682; G2 XOR 804 3278 11379; G2 XOR 803 3628 11376;
  G2 XOR 3629 3278 11378; G2 AND 11379 11378 11377; G2 XOR 11377 3278 3277; G2 XOR 11376 3277 3681;
  G2 XOR 856 3681 11175; G2 XOR 803 3277 11375; G2 XOR 802 3627 11372; G2 XOR 3628 3277 11374;
  G2 AND 11375 11374 11373; G2 XOR 11373 3277 3276; G2 XOR 11372 3276 3680; G2 XOR 802 3276 11371;
  G2 XOR 801 3626 11368; G2 XOR 3627 3276 11370; G2 AND 11371 11370 11369; G2 XOR 11369 3276 3275;
  G2 XOR 11368 3275 3679; G2 XOR 801 3275 11367; G2 XOR 800 3625 11364; G2 XOR 3626 3275 11366;
  G2 AND 11367 11366 11365; G2 XOR 11365 3275 3274; G2 XOR 11364 3274 3678; G2 XOR 800 3274 11363;
  G2 XOR 799 3624 11360; G2 XOR 3625 3274 11362; G2 AND 11363 11362 11361; G2 XOR 11361 3274 3273;
  G2 XOR 11360 3273 3677; G2 XOR 799 3273 11359; G2 XOR 798 3623 11356; G2 XOR 3624 3273 11358;
  G2 AND 11359 11358 11357; G2 XOR 11357 3273 3272; G2 XOR 11356 3272 3676; G2 XOR 798 3272 11355;
  G2 XOR 797 3622 11352; G2 XOR 3623 3272 11354; G2 AND 11355 11354 11353; G2 XOR 11353 3272 3271;
  G2 XOR 11352 3271 3675; G2 XOR 797 3271 11351; G2 XOR 796 3621 11348; G2 XOR 3622 3271 11350;
  G2 AND 11351 11350 11349; G2 XOR 11349 3271 3270; G2 XOR 11348 3270 3674; G2 XOR 796 3270 11347;
  G2 XOR 795 3620 11344; G2 XOR 3621 3270 11346; G2 AND 11347 11346 11345; G2 XOR 11345 3270 3269;
  G2 XOR 11344 3269 3673; G2 XOR 795 3269 11343; G2 XOR 794 3619 11340; G2 XOR 3620 3269 11342;
  G2 AND 11343 11342 11341; G2 XOR 11341 3269 3268; G2 XOR 11340 3268 3672; G2 XOR 847 3672 11139;
  G2 XOR 794 3268 11339; G2 XOR 793 3618 11336; G2 XOR 3619 3268 11338; G2 AND 11339 11338 11337;
  G2 XOR 11337 3268 3267; G2 XOR 11336 3267 3671; G2 XOR 793 3267 11335; G2 XOR 792 3617 11332;
  G2 XOR 3618 3267 11334; G2 AND 11335 11334 11333; G2 XOR 11333 3267 3266; G2 XOR 11332 3266 3670;
  G2 XOR 792 3266 11331; G2 XOR 791 3616 11328; G2 XOR 3617 3266 11330; G2 AND 11331 11330 11329;
  G2 XOR 11329 3266 3265; G2 XOR 11328 3265 3669; G2 XOR 791 3265 11327; G2 XOR 790 3615 11324;
  G2 XOR 3616 3265 11326; G2 AND 11327 11326 11325; G2 XOR 11325 3265 3264; G2 XOR 11324 3264 3668;
  G2 XOR 790 3264 11323; G2 XOR 789 3614 11320; G2 XOR 3615 3264 11322; G2 AND 11323 11322 11321;
  G2 XOR 11321 3264 3263; G2 XOR 11320 3263 3667; G2 XOR 789 3263 11319; G2 XOR 788 3613 11316;
  G2 XOR 3614 3263 11318; G2 AND 11319 11318 11317; G2 XOR 11317 3263 3262; G2 XOR 11316 3262 3666;
  G2 XOR 788 3262 11315; G2 XOR 787 3612 11312; G2 XOR 3613 3262 11314; G2 AND 11315 11314 11313;
  G2 XOR 11313 3262 3261; G2 XOR 11312 3261 3665; G2 XOR 840 3665 11111; G2 XOR 787 3261 11311;
  G2 XOR 786 3611 11308; G2 XOR 3612 3261 11310; G2 AND 11311 11310 11309; G2 XOR 11309 3261 3260;
  G2 XOR 11308 3260 3664; G2 XOR 786 3260 11307; G2 XOR 785 3610 11304; G2 XOR 3611 3260 11306;
  G2 AND 11307 11306 11305; G2 XOR 11305 3260 3259; G2 XOR 11304 3259 3663; G2 XOR 785 3259 11303;
  G2 XOR 784 3609 11300; G2 XOR 3610 3259 11302; G2 AND 11303 11302 11301; G2 XOR 11301 3259 3258;
  G2 XOR 11300 3258 3662; G2 XOR 784 3258 11299; G2 XOR 783 3608 11296; G2 XOR 3609 3258 11298;
  G2 AND 11299 11298 11297; G2 XOR 11297 3258 3257; G2 XOR 11296 3257 3661; G2 XOR 783 3257 11295;
  G2 XOR 782 3607 11292; G2 XOR 3608 3257 11294; G2 AND 11295 11294 11293; G2 XOR 11293 3257 3256;
  G2 XOR 11292 3256 3660; G2 XOR 782 3256 11291; G2 XOR 781 3606 11288; G2 XOR 3607 3256 11290;
  G2 AND 11291 11290 11289; G2 XOR 11289 3256 3255; G2 XOR 11288 3255 3659; G2 XOR 781 3255 11287;
  G2 XOR 780 3605 11284; G2 XOR 3606 3255 11286; G2 AND 11287 11286 11285; G2 XOR 11285 3255 3254;
  G2 XOR 11284 3254 3658; G2 XOR 833 3658 11083; G2 XOR 780 3254 11283; G2 XOR 779 3604 11280;
  G2 XOR 3605 3254 11282; G2 AND 11283 11282 11281; G2 XOR 11281 3254 3253; G2 XOR 11280 3253 3657;
  G2 XOR 779 3253 11279; G2 XOR 778 3603 11276; G2 XOR 3604 3253 11278; G2 AND 11279 11278 11277;
  G2 XOR 11277 3253 3252; G2 XOR 11276 3252 3656; G2 XOR 778 3252 11275; G2 XOR 777 3602 11272;
  G2 XOR 3603 3252 11274; G2 AND 11275 11274 11273; G2 XOR 11273 3252 3251; G2 XOR 11272 3251 3655;
  G2 XOR 777 3251 11271; G2 XOR 776 3601 11268; G2 XOR 3602 3251 11270; G2 AND 11271 11270 11269;
  G2 XOR 11269 3251 3250; G2 XOR 11268 3250 3654; G2 XOR 879 3704 11267; G2 XOR 11267 3352 3756;
  G2 XOR 931 3756 13752; G2 AND 931 3756 3402; G2 XOR 3704 3352 11265; G2 AND 11266 11265 11264;
  G2 XOR 11264 3352 3351; G2 XOR 878 3703 11263; G2 XOR 11263 3351 3755; G2 XOR 3703 3351 11261;
  G2 XOR 878 3351 11262; G2 AND 11262 11261 11260; G2 XOR 11260 3351 3350; G2 XOR 877 3702 11259;
  G2 XOR 11259 3350 3754; G2 XOR 3702 3350 11257; G2 XOR 877 3350 11258; G2 AND 11258 11257 11256;
  G2 XOR 11256 3350 3349; G2 XOR 876 3701 11255; G2 XOR 11255 3349 3753; G2 XOR 3701 3349 11253;
  G2 XOR 876 3349 11254; G2 AND 11254 11253 11252; G2 XOR 11252 3349 3348; G2 XOR 875 3700 11251;
  G2 XOR 11251 3348 3752; G2 XOR 3700 3348 11249; G2 XOR 875 3348 11250; G2 AND 11250 11249 11248;
  G2 XOR 11248 3348 3347; G2 XOR 874 3699 11247; G2 XOR 11247 3347 3751; G2 XOR 3699 3347 11245;
  G2 XOR 874 3347 11246; G2 AND 11246 11245 11244; G2 XOR 11244 3347 3346; G2 XOR 873 3698 11243;
  G2 XOR 11243 3346 3750; G2 XOR 925 3750 11046; G2 XOR 3698 3346 11241; G2 XOR 873 3346 11242;
  G2 AND 11242 11241 11240; G2 XOR 11240 3346 3345; G2 XOR 872 3697 11239; G2 XOR 11239 3345 3749;
  G2 XOR 3697 3345 11237; G2 XOR 872 3345 11238; G2 AND 11238 11237 11236; G2 XOR 11236 3345 3344;
  G2 XOR 871 3696 11235; G2 XOR 11235 3344 3748; G2 XOR 3696 3344 11233; G2 XOR 871 3344 11234;
  G2 AND 11234 11233 11232; G2 XOR 11232 3344 3343; G2 XOR 870 3695 11231; G2 XOR 11231 3343 3747;
  G2 XOR 3695 3343 11229; G2 XOR 870 3343 11230; G2 AND 11230 11229 11228; G2 XOR 11228 3343 3342;
  G2 XOR 869 3694 11227; G2 XOR 11227 3342 3746; G2 XOR 3694 3342 11225; G2 XOR 869 3342 11226;
  G2 AND 11226 11225 11224; G2 XOR 11224 3342 3341; G2 XOR 868 3693 11223; G2 XOR 11223 3341 3745;
  G2 XOR 867 3692 11219; G2 XOR 868 3341 11222; G2 XOR 3693 3341 11221; G2 AND 11222 11221 11220;
  G2 XOR 11220 3341 3340; G2 XOR 867 3340 11218; G2 XOR 11219 3340 3744; G2 XOR 866 3691 11215;
  G2 XOR 3692 3340 11217; G2 AND 11218 11217 11216; G2 XOR 11216 3340 3339; G2 XOR 3691 3339 11213;
  G2 XOR 11215 3339 3743; G2 XOR 918 3743 11018; G2 XOR 866 3339 11214; G2 AND 11214 11213 11212;
  G2 XOR 11212 3339 3338; G2 XOR 865 3690 11211; G2 XOR 11211 3338 3742; G2 XOR 3690 3338 11209;
  G2 XOR 865 3338 11210; G2 AND 11210 11209 11208; G2 XOR 11208 3338 3337; G2 XOR 864 3337 11206;
  G2 XOR 864 3689 11207; G2 XOR 11207 3337 3741; G2 XOR 3689 3337 11205; G2 AND 11206 11205 11204;
  G2 XOR 11204 3337 3336; G2 XOR 11203 3336 3740; G2 XOR 3688 3336 11201; G2 XOR 863 3336 11202;
  G2 AND 11202 11201 11200; G2 XOR 11200 3336 3335; G2 XOR 862 3687 11199; G2 XOR 11199 3335 3739;
  G2 XOR 3687 3335 11197; G2 XOR 862 3335 11198; G2 AND 11198 11197 11196; G2 XOR 11196 3335 3334;
  G2 XOR 861 3686 11195; G2 XOR 11195 3334 3738; G2 XOR 860 3685 11191; G2 XOR 861 3334 11194;
  G2 XOR 3686 3334 11193; G2 AND 11194 11193 11192; G2 XOR 11192 3334 3333; G2 XOR 860 3333 11190;
  G2 XOR 11191 3333 3737; G2 XOR 859 3684 11187; G2 XOR 3685 3333 11189; G2 AND 11190 11189 11188;
  G2 XOR 11188 3333 3332; G2 XOR 3684 3332 11185; G2 XOR 11187 3332 3736; G2 XOR 911 3736 10990;
  G2 XOR 859 3332 11186; G2 AND 11186 11185 11184; G2 XOR 11184 3332 3331; G2 XOR 858 3683 11183;
  G2 XOR 11183 3331 3735; G2 XOR 3683 3331 11181; G2 XOR 858 3331 11182; G2 AND 11182 11181 11180;
  G2 XOR 11180 3331 3330; G2 XOR 857 3330 11178; G2 XOR 857 3682 11179; G2 XOR 11179 3330 3734;
  G2 XOR 3682 3330 11177; G2 AND 11178 11177 11176; G2 XOR 11176 3330 3329; G2 XOR 11175 3329 3733;
  G2 XOR 3681 3329 11173; G2 XOR 856 3329 11174; G2 AND 11174 11173 11172; G2 XOR 11172 3329 3328;
  G2 XOR 855 3680 11171; G2 XOR 11171 3328 3732; G2 XOR 3680 3328 11169; G2 XOR 855 3328 11170;
  G2 AND 11170 11169 11168; G2 XOR 11168 3328 3327; G2 XOR 854 3679 11167; G2 XOR 11167 3327 3731;
  G2 XOR 853 3678 11163; G2 XOR 854 3327 11166; G2 XOR 3679 3327 11165; G2 AND 11166 11165 11164;
  G2 XOR 11164 3327 3326; G2 XOR 853 3326 11162; G2 XOR 11163 3326 3730; G2 XOR 852 3677 11159;
  G2 XOR 3678 3326 11161; G2 AND 11162 11161 11160; G2 XOR 11160 3326 3325; G2 XOR 3677 3325 11157;
  G2 XOR 11159 3325 3729; G2 XOR 852 3325 11158; G2 AND 11158 11157 11156; G2 XOR 11156 3325 3324;
  G2 XOR 851 3676 11155; G2 XOR 11155 3324 3728; G2 XOR 3676 3324 11153; G2 XOR 851 3324 11154;
  G2 AND 11154 11153 11152; G2 XOR 11152 3324 3323; G2 XOR 850 3323 11150; G2 XOR 850 3675 11151;
  G2 XOR 11151 3323 3727; G2 XOR 849 3674 11147; G2 XOR 3675 3323 11149; G2 AND 11150 11149 11148;
  G2 XOR 11148 3323 3322; G2 XOR 3674 3322 11145; G2 XOR 11147 3322 3726; G2 XOR 849 3322 11146;
  G2 AND 11146 11145 11144; G2 XOR 11144 3322 3321; G2 XOR 848 3321 11142; G2 XOR 848 3673 11143;
  G2 XOR 11143 3321 3725; G2 XOR 3673 3321 11141; G2 AND 11142 11141 11140; G2 XOR 11140 3321 3320;
  G2 XOR 11139 3320 3724; G2 XOR 3672 3320 11137; G2 XOR 847 3320 11138; G2 AND 11138 11137 11136;
  G2 XOR 11136 3320 3319; G2 XOR 846 3671 11135; G2 XOR 11135 3319 3723; G2 XOR 3671 3319 11133;
  G2 XOR 846 3319 11134; G2 AND 11134 11133 11132; G2 XOR 11132 3319 3318; G2 XOR 845 3670 11131;
  G2 XOR 11131 3318 3722; G2 XOR 844 3669 11127; G2 XOR 845 3318 11130; G2 XOR 3670 3318 11129;
  G2 AND 11130 11129 11128; G2 XOR 11128 3318 3317; G2 XOR 844 3317 11126; G2 XOR 11127 3317 3721;
  G2 XOR 843 3668 11123; G2 XOR 3669 3317 11125; G2 AND 11126 11125 11124; G2 XOR 11124 3317 3316;
  G2 XOR 3668 3316 11121; G2 XOR 11123 3316 3720; G2 XOR 843 3316 11122; G2 AND 11122 11121 11120;
  G2 XOR 11120 3316 3315; G2 XOR 842 3667 11119; G2 XOR 11119 3315 3719; G2 XOR 3667 3315 11117;
  G2 XOR 842 3315 11118; G2 AND 11118 11117 11116; G2 XOR 11116 3315 3314; G2 XOR 841 3314 11114;
  G2 XOR 841 3666 11115; G2 XOR 11115 3314 3718; G2 XOR 3666 3314 11113; G2 AND 11114 11113 11112;
  G2 XOR 11112 3314 3313; G2 XOR 11111 3313 3717; G2 XOR 3665 3313 11109; G2 XOR 840 3313 11110;
  G2 AND 11110 11109 11108; G2 XOR 11108 3313 3312; G2 XOR 839 3664 11107; G2 XOR 11107 3312 3716;
  G2 XOR 3664 3312 11105; G2 XOR 839 3312 11106; G2 AND 11106 11105 11104; G2 XOR 11104 3312 3311;
  G2 XOR 838 3663 11103; G2 XOR 11103 3311 3715; G2 XOR 837 3662 11099; G2 XOR 838 3311 11102;
  G2 XOR 3663 3311 11101; G2 AND 11102 11101 11100; G2 XOR 11100 3311 3310; G2 XOR 837 3310 11098;
  G2 XOR 11099 3310 3714; G2 XOR 836 3661 11095; G2 XOR 3662 3310 11097; G2 AND 11098 11097 11096;
  G2 XOR 11096 3310 3309; G2 XOR 3661 3309 11093; G2 XOR 11095 3309 3713; G2 XOR 888 3713 10898;
  G2 XOR 836 3309 11094; G2 AND 11094 11093 11092; G2 XOR 11092 3309 3308; G2 XOR 835 3660 11091;
  G2 XOR 11091 3308 3712; G2 XOR 887 3712 10894; G2 XOR 3660 3308 11089; G2 XOR 835 3308 11090;
  G2 AND 11090 11089 11088; G2 XOR 11088 3308 3307; G2 XOR 834 3307 11086; G2 XOR 834 3659 11087;
  G2 XOR 11087 3307 3711; G2 XOR 886 3711 10890; G2 XOR 3659 3307 11085; G2 AND 11086 11085 11084;
  G2 XOR 11084 3307 3306; G2 XOR 11083 3306 3710; G2 XOR 885 3710 10886; G2 XOR 3658 3306 11081;
  G2 XOR 833 3306 11082; G2 AND 11082 11081 11080; G2 XOR 11080 3306 3305; G2 XOR 832 3657 11079;
  G2 XOR 11079 3305 3709; G2 XOR 884 3709 10882; G2 XOR 3657 3305 11077; G2 XOR 832 3305 11078;
  G2 AND 11078 11077 11076; G2 XOR 11076 3305 3304; G2 XOR 831 3656 11075; G2 XOR 11075 3304 3708;
  G2 XOR 883 3708 10878; G2 XOR 830 3655 11071; G2 XOR 831 3304 11074; G2 XOR 3656 3304 11073;
  G2 AND 11074 11073 11072; G2 XOR 11072 3304 3303; G2 XOR 830 3303 11070; G2 XOR 11071 3303 3707;
  G2 XOR 882 3707 10874; G2 XOR 829 3654 11067; G2 XOR 3655 3303 11069; G2 AND 11070 11069 11068;
  G2 XOR 11068 3303 3302; G2 XOR 11067 3302 3706; G2 XOR 881 3706 10870; G2 XOR 930 3755 11066;
  G2 XOR 11066 3402 3806; G2 XOR 981 3806 13753; G2 AND 981 3806 3451; G2 XOR 980 3451 10868;
  G2 XOR 929 3754 11062; G2 XOR 930 3402 11065; G2 XOR 3755 3402 11064; G2 AND 11065 11064 11063;
  G2 XOR 11063 3402 3401; G2 XOR 929 3401 11061; G2 XOR 11062 3401 3805; G2 XOR 3805 3451 10867;
  G2 XOR 980 3805 10869; G2 AND 10868 10867 10866; G2 XOR 10866 3451 3450; G2 XOR 979 3450 10864;
  G2 XOR 928 3753 11058; G2 XOR 3754 3401 11060; G2 AND 11061 11060 11059; G2 XOR 11059 3401 3400;
  G2 XOR 3753 3400 11056; G2 XOR 11058 3400 3804; G2 XOR 3804 3450 10863; G2 XOR 979 3804 10865;
  G2 XOR 10865 3450 3854; G2 XOR 1029 3854 10676; G2 AND 10864 10863 10862; G2 XOR 10862 3450 3449;
  G2 XOR 978 3449 10860; G2 XOR 928 3400 11057; G2 AND 11057 11056 11055; G2 XOR 11055 3400 3399;
  G2 XOR 927 3752 11054; G2 XOR 11054 3399 3803; G2 XOR 978 3803 10861; G2 XOR 10861 3449 3853;
  G2 XOR 1028 3853 10672; G2 XOR 3803 3449 10859; G2 AND 10860 10859 10858; G2 XOR 10858 3449 3448;
  G2 XOR 3752 3399 11052; G2 XOR 927 3399 11053; G2 AND 11053 11052 11051; G2 XOR 11051 3399 3398;
  G2 XOR 926 3398 11049; G2 XOR 926 3751 11050; G2 XOR 11050 3398 3802; G2 XOR 3802 3448 10855;
  G2 XOR 977 3802 10857; G2 XOR 10857 3448 3852; G2 XOR 1027 3852 10668; G2 XOR 3751 3398 11048;
  G2 AND 11049 11048 11047; G2 XOR 11047 3398 3397; G2 XOR 11046 3397 3801; G2 XOR 976 3801 10853;
  G2 XOR 3750 3397 11044; G2 XOR 925 3397 11045; G2 AND 11045 11044 11043; G2 XOR 11043 3397 3396;
  G2 XOR 924 3749 11042; G2 XOR 11042 3396 3800; G2 XOR 975 3800 10849; G2 XOR 3749 3396 11040;
  G2 XOR 924 3396 11041; G2 AND 11041 11040 11039; G2 XOR 11039 3396 3395; G2 XOR 923 3748 11038;
  G2 XOR 11038 3395 3799; G2 XOR 974 3799 10845; G2 XOR 922 3747 11034; G2 XOR 923 3395 11037;
  G2 XOR 3748 3395 11036; G2 AND 11037 11036 11035; G2 XOR 11035 3395 3394; G2 XOR 922 3394 11033;
  G2 XOR 11034 3394 3798; G2 XOR 973 3798 10841; G2 XOR 921 3746 11030; G2 XOR 3747 3394 11032;
  G2 AND 11033 11032 11031; G2 XOR 11031 3394 3393; G2 XOR 3746 3393 11028; G2 XOR 11030 3393 3797;
  G2 XOR 972 3797 10837; G2 XOR 921 3393 11029; G2 AND 11029 11028 11027; G2 XOR 11027 3393 3392;
  G2 XOR 920 3745 11026; G2 XOR 11026 3392 3796; G2 XOR 971 3796 10833; G2 XOR 3745 3392 11024;
  G2 XOR 920 3392 11025; G2 AND 11025 11024 11023; G2 XOR 11023 3392 3391; G2 XOR 919 3391 11021;
  G2 XOR 919 3744 11022; G2 XOR 11022 3391 3795; G2 XOR 970 3795 10829; G2 XOR 3744 3391 11020;
  G2 AND 11021 11020 11019; G2 XOR 11019 3391 3390; G2 XOR 11018 3390 3794; G2 XOR 969 3794 10825;
  G2 XOR 3743 3390 11016; G2 XOR 918 3390 11017; G2 AND 11017 11016 11015; G2 XOR 11015 3390 3389;
  G2 XOR 917 3742 11014; G2 XOR 11014 3389 3793; G2 XOR 968 3793 10821; G2 XOR 3742 3389 11012;
  G2 XOR 917 3389 11013; G2 AND 11013 11012 11011; G2 XOR 11011 3389 3388; G2 XOR 916 3741 11010;
  G2 XOR 11010 3388 3792; G2 XOR 967 3792 10817; G2 XOR 915 3740 11006; G2 XOR 916 3388 11009;
  G2 XOR 3741 3388 11008; G2 AND 11009 11008 11007; G2 XOR 11007 3388 3387; G2 XOR 915 3387 11005;
  G2 XOR 11006 3387 3791; G2 XOR 966 3791 10813; G2 XOR 914 3739 11002; G2 XOR 3740 3387 11004;
  G2 AND 11005 11004 11003; G2 XOR 11003 3387 3386; G2 XOR 3739 3386 11000; G2 XOR 11002 3386 3790;
  G2 XOR 965 3790 10809; G2 XOR 914 3386 11001; G2 AND 11001 11000 10999; G2 XOR 10999 3386 3385;
  G2 XOR 913 3738 10998; G2 XOR 10998 3385 3789; G2 XOR 964 3789 10805; G2 XOR 3738 3385 10996;
  G2 XOR 913 3385 10997; G2 AND 10997 10996 10995; G2 XOR 10995 3385 3384; G2 XOR 912 3384 10993;
  G2 XOR 912 3737 10994; G2 XOR 10994 3384 3788; G2 XOR 963 3788 10801; G2 XOR 3737 3384 10992;
  G2 AND 10993 10992 10991; G2 XOR 10991 3384 3383; G2 XOR 10990 3383 3787; G2 XOR 962 3787 10797;
  G2 XOR 3736 3383 10988; G2 XOR 911 3383 10989; G2 AND 10989 10988 10987; G2 XOR 10987 3383 3382;
  G2 XOR 910 3735 10986; G2 XOR 10986 3382 3786; G2 XOR 961 3786 10793; G2 XOR 3735 3382 10984;
  G2 XOR 910 3382 10985; G2 AND 10985 10984 10983; G2 XOR 10983 3382 3381; G2 XOR 909 3734 10982;
  G2 XOR 10982 3381 3785; G2 XOR 960 3785 10789; G2 XOR 908 3733 10978; G2 XOR 909 3381 10981;
  G2 XOR 3734 3381 10980; G2 AND 10981 10980 10979; G2 XOR 10979 3381 3380; G2 XOR 908 3380 10977;
  G2 XOR 10978 3380 3784; G2 XOR 959 3784 10785; G2 XOR 907 3732 10974; G2 XOR 3733 3380 10976;
  G2 AND 10977 10976 10975; G2 XOR 10975 3380 3379; G2 XOR 3732 3379 10972; G2 XOR 10974 3379 3783;
  G2 XOR 958 3783 10781; G2 XOR 907 3379 10973; G2 AND 10973 10972 10971; G2 XOR 10971 3379 3378;
  G2 XOR 906 3731 10970; G2 XOR 10970 3378 3782; G2 XOR 957 3782 10777; G2 XOR 3731 3378 10968;
  G2 XOR 906 3378 10969; G2 AND 10969 10968 10967; G2 XOR 10967 3378 3377; G2 XOR 3730 3377 10964;
  G2 XOR 905 3377 10965; G2 AND 10965 10964 10963; G2 XOR 905 3730 10966; G2 XOR 10966 3377 3781;
  G2 XOR 956 3781 10773; G2 XOR 10963 3377 3376; G2 XOR 904 3376 10961; G2 XOR 904 3729 10962;
  G2 XOR 10962 3376 3780; G2 XOR 955 3780 10769; G2 XOR 3729 3376 10960; G2 AND 10961 10960 10959;
  G2 XOR 10959 3376 3375; G2 XOR 903 3375 10957; G2 XOR 903 3728 10958; G2 XOR 10958 3375 3779;
  G2 XOR 954 3779 10765; G2 XOR 3728 3375 10956; G2 AND 10957 10956 10955; G2 XOR 10955 3375 3374;
  G2 XOR 902 3374 10953; G2 XOR 902 3727 10954; G2 XOR 10954 3374 3778; G2 XOR 953 3778 10761;
  G2 XOR 3727 3374 10952; G2 AND 10953 10952 10951; G2 XOR 10951 3374 3373; G2 XOR 901 3373 10949;
  G2 XOR 901 3726 10950; G2 XOR 10950 3373 3777; G2 XOR 952 3777 10757; G2 XOR 3726 3373 10948;
  G2 AND 10949 10948 10947; G2 XOR 10947 3373 3372; G2 XOR 900 3372 10945; G2 XOR 900 3725 10946;
  G2 XOR 10946 3372 3776; G2 XOR 951 3776 10753; G2 XOR 3725 3372 10944; G2 AND 10945 10944 10943;
  G2 XOR 10943 3372 3371; G2 XOR 899 3371 10941; G2 XOR 899 3724 10942; G2 XOR 10942 3371 3775;
  G2 XOR 950 3775 10749; G2 XOR 3724 3371 10940; G2 AND 10941 10940 10939; G2 XOR 10939 3371 3370;
  G2 XOR 898 3370 10937; G2 XOR 898 3723 10938; G2 XOR 10938 3370 3774; G2 XOR 949 3774 10745;
  G2 XOR 3723 3370 10936; G2 AND 10937 10936 10935; G2 XOR 10935 3370 3369; G2 XOR 897 3369 10933;
  G2 XOR 897 3722 10934; G2 XOR 10934 3369 3773; G2 XOR 948 3773 10741; G2 XOR 3722 3369 10932;
  G2 AND 10933 10932 10931; G2 XOR 10931 3369 3368; G2 XOR 896 3368 10929; G2 XOR 896 3721 10930;
  G2 XOR 10930 3368 3772; G2 XOR 947 3772 10737; G2 XOR 3721 3368 10928; G2 AND 10929 10928 10927;
  G2 XOR 10927 3368 3367; G2 XOR 895 3367 10925; G2 XOR 895 3720 10926; G2 XOR 10926 3367 3771;
  G2 XOR 946 3771 10733; G2 XOR 3720 3367 10924; G2 AND 10925 10924 10923; G2 XOR 10923 3367 3366;
  G2 XOR 894 3366 10921; G2 XOR 894 3719 10922; G2 XOR 10922 3366 3770; G2 XOR 945 3770 10729;
  G2 XOR 3719 3366 10920; G2 AND 10921 10920 10919; G2 XOR 10919 3366 3365; G2 XOR 893 3365 10917;
  G2 XOR 893 3718 10918; G2 XOR 10918 3365 3769; G2 XOR 944 3769 10725; G2 XOR 3718 3365 10916;
  G2 AND 10917 10916 10915; G2 XOR 10915 3365 3364; G2 XOR 892 3364 10913; G2 XOR 892 3717 10914;
  G2 XOR 10914 3364 3768; G2 XOR 943 3768 10721; G2 XOR 3717 3364 10912; G2 AND 10913 10912 10911;
  G2 XOR 10911 3364 3363; G2 XOR 891 3363 10909; G2 XOR 891 3716 10910; G2 XOR 10910 3363 3767;
  G2 XOR 942 3767 10717; G2 XOR 3716 3363 10908; G2 AND 10909 10908 10907; G2 XOR 10907 3363 3362;
  G2 XOR 890 3362 10905; G2 XOR 890 3715 10906; G2 XOR 10906 3362 3766; G2 XOR 941 3766 10713;
  G2 XOR 3715 3362 10904; G2 AND 10905 10904 10903; G2 XOR 10903 3362 3361; G2 XOR 889 3361 10901;
  G2 XOR 889 3714 10902; G2 XOR 10902 3361 3765; G2 XOR 940 3765 10709; G2 XOR 3714 3361 10900;
  G2 AND 10901 10900 10899; G2 XOR 10899 3361 3360; G2 XOR 888 3360 10897; G2 XOR 3713 3360 10896;
  G2 AND 10897 10896 10895; G2 XOR 10898 3360 3764; G2 XOR 939 3764 10705; G2 XOR 10895 3360 3359;
  G2 XOR 3712 3359 10892; G2 XOR 10894 3359 3763; G2 XOR 938 3763 10701; G2 XOR 887 3359 10893;
  G2 AND 10893 10892 10891; G2 XOR 10891 3359 3358; G2 XOR 10890 3358 3762; G2 XOR 937 3762 10697;
  G2 XOR 3711 3358 10888; G2 XOR 886 3358 10889; G2 AND 10889 10888 10887; G2 XOR 10887 3358 3357;
  G2 XOR 10886 3357 3761; G2 XOR 3710 3357 10884; G2 XOR 936 3761 10693; G2 XOR 885 3357 10885;
  G2 AND 10885 10884 10883; G2 XOR 10883 3357 3356; G2 XOR 884 3356 10881; G2 XOR 3709 3356 10880;
  G2 AND 10881 10880 10879; G2 XOR 10879 3356 3355; G2 XOR 883 3355 10877; G2 XOR 10878 3355 3759;
  G2 XOR 934 3759 10685; G2 XOR 3708 3355 10876; G2 AND 10877 10876 10875; G2 XOR 10875 3355 3354;
  G2 XOR 3707 3354 10872; G2 XOR 10874 3354 3758; G2 XOR 933 3758 10681; G2 XOR 10882 3356 3760;
  G2 XOR 935 3760 10689; G2 XOR 882 3354 10873; G2 AND 10873 10872 10871; G2 XOR 10871 3354 3353;
  G2 XOR 10870 3353 3757; G2 XOR 932 3757 10677; G2 XOR 10869 3451 3855; G2 XOR 1030 3855 13754;
  G2 AND 1030 3855 3499; G2 XOR 10676 3499 3903; G2 XOR 1078 3903 13755; G2 AND 1078 3903 3546;
  G2 XOR 1029 3499 10675; G2 XOR 3854 3499 10674; G2 AND 10675 10674 10673; G2 XOR 10673 3499 3498;
  G2 XOR 10672 3498 3902; G2 XOR 1028 3498 10671; G2 XOR 3853 3498 10670; G2 AND 10671 10670 10669;
  G2 XOR 10669 3498 3497; G2 XOR 1027 3497 10667; G2 XOR 10668 3497 3901; G2 XOR 3852 3497 10666;
  G2 AND 10667 10666 10665; G2 XOR 10665 3497 3496; G2 XOR 1026 3496 10663; G2 XOR 1077 3902 10487;
  G2 XOR 10487 3546 3950; G2 XOR 1125 3950 13756; G2 AND 1125 3950 3996; G2 XOR 1077 3546 10486;
  G2 XOR 3902 3546 10485; G2 AND 10486 10485 10484; G2 XOR 10484 3546 3545; G2 XOR 1076 3901 10483;
  G2 XOR 10483 3545 3949; G2 XOR 1076 3545 10482; G2 XOR 3901 3545 10481; G2 AND 10482 10481 10480;
  G2 XOR 10480 3545 3544; G2 XOR 1075 3544 10478; G2 XOR 1124 3949 10302; G2 XOR 3949 3996 10300;
  G2 XOR 10302 3996 4336; G2 XOR 1171 4336 13757; G2 AND 1171 4336 4041; G2 XOR 1124 3996 10301;
  G2 AND 10301 10300 10299; G2 XOR 10299 3996 3995; G2 XOR 1123 3995 10297; G2 XOR 1170 4041 10120;
  G2 XOR 977 3448 10856; G2 AND 10856 10855 10854; G2 XOR 10854 3448 3447; G2 XOR 976 3447 10852;
  G2 XOR 3801 3447 10851; G2 AND 10852 10851 10850; G2 XOR 10853 3447 3851; G2 XOR 3851 3496 10662;
  G2 XOR 1026 3851 10664; G2 XOR 10664 3496 3900; G2 AND 10663 10662 10661; G2 XOR 10661 3496 3495;
  G2 XOR 1025 3495 10659; G2 XOR 1075 3900 10479; G2 XOR 10479 3544 3948; G2 XOR 3900 3544 10477;
  G2 AND 10478 10477 10476; G2 XOR 10476 3544 3543; G2 XOR 1074 3543 10474; G2 XOR 1123 3948 10298;
  G2 XOR 3948 3995 10296; G2 XOR 10298 3995 4335; G2 AND 10297 10296 10295; G2 XOR 10295 3995 3994;
  G2 XOR 1122 3994 10293; G2 XOR 1170 4335 10121; G2 XOR 10121 4041 4381; G2 XOR 1216 4381 13758;
  G2 AND 1216 4381 4085; G2 XOR 4335 4041 10119; G2 AND 10120 10119 10118; G2 XOR 10118 4041 4040;
  G2 XOR 1169 4040 10116; G2 XOR 1215 4085 9943; G2 XOR 10850 3447 3446; G2 XOR 10849 3446 3850;
  G2 XOR 3850 3495 10658; G2 XOR 1025 3850 10660; G2 XOR 10660 3495 3899; G2 AND 10659 10658 10657;
  G2 XOR 10657 3495 3494; G2 XOR 1024 3494 10655; G2 XOR 1074 3899 10475; G2 XOR 10475 3543 3947;
  G2 XOR 3899 3543 10473; G2 AND 10474 10473 10472; G2 XOR 10472 3543 3542; G2 XOR 1073 3542 10470;
  G2 XOR 975 3446 10848; G2 XOR 3800 3446 10847; G2 AND 10848 10847 10846; G2 XOR 10846 3446 3445;
  G2 XOR 10845 3445 3849; G2 XOR 3849 3494 10654; G2 XOR 1024 3849 10656; G2 XOR 10656 3494 3898;
  G2 AND 10655 10654 10653; G2 XOR 10653 3494 3493; G2 XOR 1023 3493 10651; G2 XOR 1073 3898 10471;
  G2 XOR 10471 3542 3946; G2 XOR 3898 3542 10469; G2 AND 10470 10469 10468; G2 XOR 10468 3542 3541;
  G2 XOR 1072 3541 10466; G2 XOR 1122 3947 10294; G2 XOR 3947 3994 10292; G2 XOR 10294 3994 4334;
  G2 AND 10293 10292 10291; G2 XOR 10291 3994 3993; G2 XOR 1121 3946 10290; G2 XOR 3946 3993 10288;
  G2 XOR 10290 3993 4333; G2 XOR 1121 3993 10289; G2 AND 10289 10288 10287; G2 XOR 10287 3993 3992;
  G2 XOR 1120 3992 10285; G2 XOR 974 3445 10844; G2 XOR 3799 3445 10843; G2 AND 10844 10843 10842;
  G2 XOR 10842 3445 3444; G2 XOR 3798 3444 10839; G2 XOR 10841 3444 3848; G2 XOR 3848 3493 10650;
  G2 XOR 1023 3848 10652; G2 XOR 10652 3493 3897; G2 AND 10651 10650 10649; G2 XOR 10649 3493 3492;
  G2 XOR 1022 3492 10647; G2 XOR 1072 3897 10467; G2 XOR 10467 3541 3945; G2 XOR 3897 3541 10465;
  G2 AND 10466 10465 10464; G2 XOR 10464 3541 3540; G2 XOR 1071 3540 10462; G2 XOR 1120 3945 10286;
  G2 XOR 3945 3992 10284; G2 XOR 10286 3992 4332; G2 AND 10285 10284 10283; G2 XOR 10283 3992 3991;
  G2 XOR 1119 3991 10281; G2 XOR 1169 4334 10117; G2 XOR 10117 4040 4380; G2 XOR 4334 4040 10115;
  G2 AND 10116 10115 10114; G2 XOR 10114 4040 4039; G2 XOR 1168 4333 10113; G2 XOR 10113 4039 4379;
  G2 XOR 4333 4039 10111; G2 XOR 1168 4039 10112; G2 AND 10112 10111 10110; G2 XOR 10110 4039 4038;
  G2 XOR 1167 4332 10109; G2 XOR 10109 4038 4378; G2 XOR 4332 4038 10107; G2 XOR 1167 4038 10108;
  G2 AND 10108 10107 10106; G2 XOR 10106 4038 4037; G2 XOR 1166 4037 10104; G2 XOR 973 3444 10840;
  G2 AND 10840 10839 10838; G2 XOR 10838 3444 3443; G2 XOR 10837 3443 3847; G2 XOR 3847 3492 10646;
  G2 XOR 1022 3847 10648; G2 XOR 10648 3492 3896; G2 AND 10647 10646 10645; G2 XOR 10645 3492 3491;
  G2 XOR 1021 3491 10643; G2 XOR 3896 3540 10461; G2 AND 10462 10461 10460; G2 XOR 1071 3896 10463;
  G2 XOR 10463 3540 3944; G2 XOR 10460 3540 3539; G2 XOR 1070 3539 10458; G2 XOR 1119 3944 10282;
  G2 XOR 3944 3991 10280; G2 XOR 10282 3991 4331; G2 AND 10281 10280 10279; G2 XOR 10279 3991 3990;
  G2 XOR 1118 3990 10277; G2 XOR 1166 4331 10105; G2 XOR 10105 4037 4377; G2 XOR 4331 4037 10103;
  G2 AND 10104 10103 10102; G2 XOR 10102 4037 4036; G2 XOR 1165 4036 10100; G2 XOR 972 3443 10836;
  G2 XOR 1215 4380 9944; G2 XOR 9944 4085 4425; G2 XOR 1260 4425 13759; G2 AND 1260 4425 4128;
  G2 XOR 1259 4128 9770; G2 XOR 1214 4379 9940; G2 XOR 4380 4085 9942; G2 AND 9943 9942 9941;
  G2 XOR 9941 4085 4084; G2 XOR 9940 4084 4424; G2 XOR 1214 4084 9939; G2 XOR 1213 4378 9936;
  G2 XOR 4379 4084 9938; G2 AND 9939 9938 9937; G2 XOR 9937 4084 4083; G2 XOR 1213 4083 9935;
  G2 XOR 9936 4083 4423; G2 XOR 4378 4083 9934; G2 AND 9935 9934 9933; G2 XOR 9933 4083 4082;
  G2 XOR 1212 4377 9932; G2 XOR 9932 4082 4422; G2 XOR 1212 4082 9931; G2 XOR 4377 4082 9930;
  G2 AND 9931 9930 9929; G2 XOR 9929 4082 4081; G2 XOR 1211 4081 9927; G2 XOR 3797 3443 10835;
  G2 AND 10836 10835 10834; G2 XOR 10834 3443 3442; G2 XOR 3796 3442 10831; G2 XOR 971 3442 10832;
  G2 AND 10832 10831 10830; G2 XOR 1259 4424 9771; G2 XOR 9771 4128 4468; G2 XOR 1303 4468 13760;
  G2 AND 1303 4468 4170; G2 XOR 1258 4423 9767; G2 XOR 4424 4128 9769; G2 AND 9770 9769 9768;
  G2 XOR 9768 4128 4127; G2 XOR 9767 4127 4467; G2 XOR 4467 4170 9600; G2 XOR 1258 4127 9766;
  G2 XOR 4423 4127 9765; G2 AND 9766 9765 9764; G2 XOR 9764 4127 4126; G2 XOR 1257 4422 9763;
  G2 XOR 9763 4126 4466; G2 XOR 1301 4466 9598; G2 XOR 4422 4126 9761; G2 XOR 1257 4126 9762;
  G2 AND 9762 9761 9760; G2 XOR 9760 4126 4125; G2 XOR 1256 4125 9758; G2 XOR 1302 4170 9601;
  G2 AND 9601 9600 9599; G2 XOR 1302 4467 9602; G2 XOR 9602 4170 4510; G2 XOR 1345 4510 13761;
  G2 AND 1345 4510 4211; G2 XOR 1344 4211 9436; G2 XOR 9599 4170 4169; G2 XOR 1301 4169 9597;
  G2 XOR 9598 4169 4509; G2 XOR 4509 4211 9435; G2 AND 9436 9435 9434; G2 XOR 9434 4211 4210;
  G2 XOR 1344 4509 9437; G2 XOR 9437 4211 4551; G2 XOR 1386 4551 13762; G2 AND 1386 4551 4251;
  G2 XOR 1343 4210 9432; G2 XOR 1385 4251 9275; G2 XOR 4466 4169 9596; G2 AND 9597 9596 9595;
  G2 XOR 9595 4169 4168; G2 XOR 1300 4168 9593; G2 XOR 10830 3442 3441; G2 XOR 10829 3441 3845;
  G2 XOR 3795 3441 10827; G2 XOR 970 3441 10828; G2 AND 10828 10827 10826; G2 XOR 10826 3441 3440;
  G2 XOR 10825 3440 3844; G2 XOR 3794 3440 10823; G2 XOR 969 3440 10824; G2 AND 10824 10823 10822;
  G2 XOR 10822 3440 3439; G2 XOR 10821 3439 3843; G2 XOR 968 3439 10820; G2 XOR 3793 3439 10819;
  G2 AND 10820 10819 10818; G2 XOR 10818 3439 3438; G2 XOR 10817 3438 3842; G2 XOR 967 3438 10816;
  G2 XOR 3792 3438 10815; G2 AND 10816 10815 10814; G2 XOR 10814 3438 3437; G2 XOR 10813 3437 3841;
  G2 XOR 966 3437 10812; G2 XOR 3791 3437 10811; G2 AND 10812 10811 10810; G2 XOR 10810 3437 3436;
  G2 XOR 10809 3436 3840; G2 XOR 965 3436 10808; G2 XOR 3790 3436 10807; G2 AND 10808 10807 10806;
  G2 XOR 10806 3436 3435; G2 XOR 10805 3435 3839; G2 XOR 964 3435 10804; G2 XOR 3789 3435 10803;
  G2 AND 10804 10803 10802; G2 XOR 10802 3435 3434; G2 XOR 963 3434 10800; G2 XOR 10801 3434 3838;
  G2 XOR 3788 3434 10799; G2 AND 10800 10799 10798; G2 XOR 10798 3434 3433; G2 XOR 962 3433 10796;
  G2 XOR 10797 3433 3837; G2 XOR 3787 3433 10795; G2 AND 10796 10795 10794; G2 XOR 10794 3433 3432;
  G2 XOR 10793 3432 3836; G2 XOR 961 3432 10792; G2 XOR 3786 3432 10791; G2 AND 10792 10791 10790;
  G2 XOR 10790 3432 3431; G2 XOR 10789 3431 3835; G2 XOR 3785 3431 10787; G2 XOR 960 3431 10788;
  G2 AND 10788 10787 10786; G2 XOR 10786 3431 3430; G2 XOR 10785 3430 3834; G2 XOR 959 3430 10784;
  G2 XOR 3784 3430 10783; G2 AND 10784 10783 10782; G2 XOR 10782 3430 3429; G2 XOR 958 3429 10780;
  G2 XOR 10781 3429 3833; G2 XOR 3783 3429 10779; G2 AND 10780 10779 10778; G2 XOR 10778 3429 3428;
  G2 XOR 957 3428 10776; G2 XOR 10777 3428 3832; G2 XOR 3782 3428 10775; G2 AND 10776 10775 10774;
  G2 XOR 10774 3428 3427; G2 XOR 10773 3427 3831; G2 XOR 956 3427 10772; G2 XOR 3781 3427 10771;
  G2 AND 10772 10771 10770; G2 XOR 10770 3427 3426; G2 XOR 10769 3426 3830; G2 XOR 3780 3426 10767;
  G2 XOR 955 3426 10768; G2 AND 10768 10767 10766; G2 XOR 10766 3426 3425; G2 XOR 10765 3425 3829;
  G2 XOR 3779 3425 10763; G2 XOR 954 3425 10764; G2 AND 10764 10763 10762; G2 XOR 10762 3425 3424;
  G2 XOR 10761 3424 3828; G2 XOR 953 3424 10760; G2 XOR 3778 3424 10759; G2 AND 10760 10759 10758;
  G2 XOR 10758 3424 3423; G2 XOR 10757 3423 3827; G2 XOR 952 3423 10756; G2 XOR 3777 3423 10755;
  G2 AND 10756 10755 10754; G2 XOR 10754 3423 3422; G2 XOR 10753 3422 3826; G2 XOR 951 3422 10752;
  G2 XOR 3776 3422 10751; G2 AND 10752 10751 10750; G2 XOR 10750 3422 3421; G2 XOR 10749 3421 3825;
  G2 XOR 3775 3421 10747; G2 XOR 950 3421 10748; G2 AND 10748 10747 10746; G2 XOR 10746 3421 3420;
  G2 XOR 10745 3420 3824; G2 XOR 3774 3420 10743; G2 XOR 949 3420 10744; G2 AND 10744 10743 10742;
  G2 XOR 10742 3420 3419; G2 XOR 10741 3419 3823; G2 XOR 948 3419 10740; G2 XOR 3773 3419 10739;
  G2 AND 10740 10739 10738; G2 XOR 10738 3419 3418; G2 XOR 10737 3418 3822; G2 XOR 947 3418 10736;
  G2 XOR 3772 3418 10735; G2 AND 10736 10735 10734; G2 XOR 10734 3418 3417; G2 XOR 10733 3417 3821;
  G2 XOR 946 3417 10732; G2 XOR 3771 3417 10731; G2 AND 10732 10731 10730; G2 XOR 10730 3417 3416;
  G2 XOR 10729 3416 3820; G2 XOR 3770 3416 10727; G2 XOR 945 3416 10728; G2 AND 10728 10727 10726;
  G2 XOR 10726 3416 3415; G2 XOR 10725 3415 3819; G2 XOR 3769 3415 10723; G2 XOR 944 3415 10724;
  G2 AND 10724 10723 10722; G2 XOR 10722 3415 3414; G2 XOR 10721 3414 3818; G2 XOR 943 3414 10720;
  G2 XOR 3768 3414 10719; G2 AND 10720 10719 10718; G2 XOR 10718 3414 3413; G2 XOR 10717 3413 3817;
  G2 XOR 942 3413 10716; G2 XOR 3767 3413 10715; G2 AND 10716 10715 10714; G2 XOR 10714 3413 3412;
  G2 XOR 10713 3412 3816; G2 XOR 941 3412 10712; G2 XOR 3766 3412 10711; G2 AND 10712 10711 10710;
  G2 XOR 10710 3412 3411; G2 XOR 10709 3411 3815; G2 XOR 940 3411 10708; G2 XOR 3765 3411 10707;
  G2 AND 10708 10707 10706; G2 XOR 10706 3411 3410; G2 XOR 10705 3410 3814; G2 XOR 939 3410 10704;
  G2 XOR 3764 3410 10703; G2 AND 10704 10703 10702; G2 XOR 10702 3410 3409; G2 XOR 938 3409 10700;
  G2 XOR 10701 3409 3813; G2 XOR 3763 3409 10699; G2 AND 10700 10699 10698; G2 XOR 10698 3409 3408;
  G2 XOR 937 3408 10696; G2 XOR 10697 3408 3812; G2 XOR 3762 3408 10695; G2 AND 10696 10695 10694;
  G2 XOR 10694 3408 3407; G2 XOR 10693 3407 3811; G2 XOR 936 3407 10692; G2 XOR 3761 3407 10691;
  G2 AND 10692 10691 10690; G2 XOR 10690 3407 3406; G2 XOR 10689 3406 3810; G2 XOR 3760 3406 10687;
  G2 XOR 935 3406 10688; G2 AND 10688 10687 10686; G2 XOR 10686 3406 3405; G2 XOR 10685 3405 3809;
  G2 XOR 934 3405 10684; G2 XOR 3759 3405 10683; G2 AND 10684 10683 10682; G2 XOR 10682 3405 3404;
  G2 XOR 933 3404 10680; G2 XOR 10681 3404 3808; G2 XOR 3758 3404 10679; G2 AND 10680 10679 10678;
  G2 XOR 10678 3404 3403; G2 XOR 10677 3403 3807; G2 XOR 1020 3845 10640; G2 XOR 1019 3844 10636;
  G2 XOR 1018 3843 10632; G2 XOR 1017 3842 10628; G2 XOR 1016 3841 10624; G2 XOR 1015 3840 10620;
  G2 XOR 1014 3839 10616; G2 XOR 1013 3838 10612; G2 XOR 1012 3837 10608; G2 XOR 1011 3836 10604;
  G2 XOR 1010 3835 10600; G2 XOR 1009 3834 10596; G2 XOR 1008 3833 10592; G2 XOR 1007 3832 10588;
  G2 XOR 1006 3831 10584; G2 XOR 1005 3830 10580; G2 XOR 1004 3829 10576; G2 XOR 1003 3828 10572;
  G2 XOR 1002 3827 10568; G2 XOR 1001 3826 10564; G2 XOR 1000 3825 10560; G2 XOR 999 3824 10556;
  G2 XOR 998 3823 10552; G2 XOR 997 3822 10548; G2 XOR 996 3821 10544; G2 XOR 995 3820 10540;
  G2 XOR 994 3819 10536; G2 XOR 993 3818 10532; G2 XOR 992 3817 10528; G2 XOR 991 3816 10524;
  G2 XOR 990 3815 10520; G2 XOR 989 3814 10516; G2 XOR 988 3813 10512; G2 XOR 987 3812 10508;
  G2 XOR 986 3811 10504; G2 XOR 985 3810 10500; G2 XOR 984 3809 10496; G2 XOR 983 3808 10492;
  G2 XOR 982 3807 10488; G2 XOR 10833 3442 3846; G2 XOR 3846 3491 10642; G2 XOR 1021 3846 10644;
  G2 XOR 10644 3491 3895; G2 AND 10643 10642 10641; G2 XOR 10641 3491 3490; G2 XOR 3845 3490 10638;
  G2 XOR 10640 3490 3894; G2 XOR 1020 3490 10639; G2 AND 10639 10638 10637; G2 XOR 10637 3490 3489;
  G2 XOR 3844 3489 10634; G2 XOR 10636 3489 3893; G2 XOR 1019 3489 10635; G2 AND 10635 10634 10633;
  G2 XOR 10633 3489 3488; G2 XOR 3843 3488 10630; G2 XOR 10632 3488 3892; G2 XOR 1018 3488 10631;
  G2 AND 10631 10630 10629; G2 XOR 10629 3488 3487; G2 XOR 3842 3487 10626; G2 XOR 10628 3487 3891;
  G2 XOR 1017 3487 10627; G2 AND 10627 10626 10625; G2 XOR 10625 3487 3486; G2 XOR 3841 3486 10622;
  G2 XOR 10624 3486 3890; G2 XOR 1016 3486 10623; G2 AND 10623 10622 10621; G2 XOR 10621 3486 3485;
  G2 XOR 3840 3485 10618; G2 XOR 10620 3485 3889; G2 XOR 1015 3485 10619; G2 AND 10619 10618 10617;
  G2 XOR 10617 3485 3484; G2 XOR 3839 3484 10614; G2 XOR 10616 3484 3888; G2 XOR 1014 3484 10615;
  G2 AND 10615 10614 10613; G2 XOR 10613 3484 3483; G2 XOR 3838 3483 10610; G2 XOR 10612 3483 3887;
  G2 XOR 1013 3483 10611; G2 AND 10611 10610 10609; G2 XOR 10609 3483 3482; G2 XOR 3837 3482 10606;
  G2 XOR 10608 3482 3886; G2 XOR 1012 3482 10607; G2 AND 10607 10606 10605; G2 XOR 10605 3482 3481;
  G2 XOR 3836 3481 10602; G2 XOR 10604 3481 3885; G2 XOR 1011 3481 10603; G2 AND 10603 10602 10601;
  G2 XOR 10601 3481 3480; G2 XOR 3835 3480 10598; G2 XOR 10600 3480 3884; G2 XOR 1059 3884 10415;
  G2 XOR 1010 3480 10599; G2 AND 10599 10598 10597; G2 XOR 10597 3480 3479; G2 XOR 3834 3479 10594;
  G2 XOR 10596 3479 3883; G2 XOR 1009 3479 10595; G2 AND 10595 10594 10593; G2 XOR 10593 3479 3478;
  G2 XOR 3833 3478 10590; G2 XOR 10592 3478 3882; G2 XOR 1008 3478 10591; G2 AND 10591 10590 10589;
  G2 XOR 10589 3478 3477; G2 XOR 3832 3477 10586; G2 XOR 10588 3477 3881; G2 XOR 1007 3477 10587;
  G2 AND 10587 10586 10585; G2 XOR 10585 3477 3476; G2 XOR 3831 3476 10582; G2 XOR 10584 3476 3880;
  G2 XOR 1006 3476 10583; G2 AND 10583 10582 10581; G2 XOR 10581 3476 3475; G2 XOR 3830 3475 10578;
  G2 XOR 10580 3475 3879; G2 XOR 1005 3475 10579; G2 AND 10579 10578 10577; G2 XOR 10577 3475 3474;
  G2 XOR 3829 3474 10574; G2 XOR 10576 3474 3878; G2 XOR 1004 3474 10575; G2 AND 10575 10574 10573;
  G2 XOR 10573 3474 3473; G2 XOR 3828 3473 10570; G2 XOR 10572 3473 3877; G2 XOR 1003 3473 10571;
  G2 AND 10571 10570 10569; G2 XOR 10569 3473 3472; G2 XOR 3827 3472 10566; G2 XOR 10568 3472 3876;
  G2 XOR 1002 3472 10567; G2 AND 10567 10566 10565; G2 XOR 10565 3472 3471; G2 XOR 3826 3471 10562;
  G2 XOR 10564 3471 3875; G2 XOR 1001 3471 10563; G2 AND 10563 10562 10561; G2 XOR 10561 3471 3470;
  G2 XOR 3825 3470 10558; G2 XOR 10560 3470 3874; G2 XOR 1000 3470 10559; G2 AND 10559 10558 10557;
  G2 XOR 10557 3470 3469; G2 XOR 3824 3469 10554; G2 XOR 10556 3469 3873; G2 XOR 999 3469 10555;
  G2 AND 10555 10554 10553; G2 XOR 10553 3469 3468; G2 XOR 3823 3468 10550; G2 XOR 10552 3468 3872;
  G2 XOR 998 3468 10551; G2 AND 10551 10550 10549; G2 XOR 10549 3468 3467; G2 XOR 3822 3467 10546;
  G2 XOR 10548 3467 3871; G2 XOR 997 3467 10547; G2 AND 10547 10546 10545; G2 XOR 10545 3467 3466;
  G2 XOR 3821 3466 10542; G2 XOR 10544 3466 3870; G2 XOR 996 3466 10543; G2 AND 10543 10542 10541;
  G2 XOR 10541 3466 3465; G2 XOR 3820 3465 10538; G2 XOR 10540 3465 3869; G2 XOR 995 3465 10539;
  G2 AND 10539 10538 10537; G2 XOR 10537 3465 3464; G2 XOR 3819 3464 10534; G2 XOR 10536 3464 3868;
  G2 XOR 994 3464 10535; G2 AND 10535 10534 10533; G2 XOR 10533 3464 3463; G2 XOR 3818 3463 10530;
  G2 XOR 10532 3463 3867; G2 XOR 993 3463 10531; G2 AND 10531 10530 10529; G2 XOR 10529 3463 3462;
  G2 XOR 3817 3462 10526; G2 XOR 10528 3462 3866; G2 XOR 992 3462 10527; G2 AND 10527 10526 10525;
  G2 XOR 10525 3462 3461; G2 XOR 3816 3461 10522; G2 XOR 10524 3461 3865; G2 XOR 991 3461 10523;
  G2 AND 10523 10522 10521; G2 XOR 10521 3461 3460; G2 XOR 3815 3460 10518; G2 XOR 10520 3460 3864;
  G2 XOR 990 3460 10519; G2 AND 10519 10518 10517; G2 XOR 10517 3460 3459; G2 XOR 3814 3459 10514;
  G2 XOR 10516 3459 3863; G2 XOR 989 3459 10515; G2 AND 10515 10514 10513; G2 XOR 10513 3459 3458;
  G2 XOR 3813 3458 10510; G2 XOR 10512 3458 3862; G2 XOR 988 3458 10511; G2 AND 10511 10510 10509;
  G2 XOR 10509 3458 3457; G2 XOR 3812 3457 10506; G2 XOR 10508 3457 3861; G2 XOR 987 3457 10507;
  G2 AND 10507 10506 10505; G2 XOR 10505 3457 3456; G2 XOR 3811 3456 10502; G2 XOR 10504 3456 3860;
  G2 XOR 986 3456 10503; G2 AND 10503 10502 10501; G2 XOR 10501 3456 3455; G2 XOR 3810 3455 10498;
  G2 XOR 10500 3455 3859; G2 XOR 985 3455 10499; G2 AND 10499 10498 10497; G2 XOR 10497 3455 3454;
  G2 XOR 3809 3454 10494; G2 XOR 10496 3454 3858; G2 XOR 984 3454 10495; G2 AND 10495 10494 10493;
  G2 XOR 10493 3454 3453; G2 XOR 3808 3453 10490; G2 XOR 10492 3453 3857; G2 XOR 983 3453 10491;
  G2 AND 10491 10490 10489; G2 XOR 10489 3453 3452; G2 XOR 10488 3452 3856; G2 XOR 3895 3539 10457;
  G2 AND 10458 10457 10456; G2 XOR 10456 3539 3538; G2 XOR 1070 3895 10459; G2 XOR 10459 3539 3943;
  G2 XOR 3894 3538 10453; G2 XOR 1069 3894 10455; G2 XOR 10455 3538 3942; G2 XOR 1069 3538 10454;
  G2 AND 10454 10453 10452; G2 XOR 10452 3538 3537; G2 XOR 1068 3537 10450; G2 XOR 1068 3893 10451;
  G2 XOR 10451 3537 3941; G2 XOR 3893 3537 10449; G2 AND 10450 10449 10448; G2 XOR 10448 3537 3536;
  G2 XOR 1067 3892 10447; G2 XOR 10447 3536 3940; G2 XOR 1067 3536 10446; G2 XOR 3892 3536 10445;
  G2 AND 10446 10445 10444; G2 XOR 10444 3536 3535; G2 XOR 1066 3891 10443; G2 XOR 10443 3535 3939;
  G2 XOR 1066 3535 10442; G2 XOR 3891 3535 10441; G2 AND 10442 10441 10440; G2 XOR 10440 3535 3534;
  G2 XOR 1065 3890 10439; G2 XOR 10439 3534 3938; G2 XOR 1065 3534 10438; G2 XOR 3890 3534 10437;
  G2 AND 10438 10437 10436; G2 XOR 10436 3534 3533; G2 XOR 1064 3889 10435; G2 XOR 10435 3533 3937;
  G2 XOR 1064 3533 10434; G2 XOR 3889 3533 10433; G2 AND 10434 10433 10432; G2 XOR 10432 3533 3532;
  G2 XOR 1063 3888 10431; G2 XOR 10431 3532 3936; G2 XOR 1063 3532 10430; G2 XOR 3888 3532 10429;
  G2 AND 10430 10429 10428; G2 XOR 10428 3532 3531; G2 XOR 1062 3887 10427; G2 XOR 10427 3531 3935;
  G2 XOR 1062 3531 10426; G2 XOR 3887 3531 10425; G2 AND 10426 10425 10424; G2 XOR 10424 3531 3530;
  G2 XOR 1061 3886 10423; G2 XOR 10423 3530 3934; G2 XOR 1061 3530 10422; G2 XOR 3886 3530 10421;
  G2 AND 10422 10421 10420; G2 XOR 10420 3530 3529; G2 XOR 1060 3885 10419; G2 XOR 10419 3529 3933;
  G2 XOR 1060 3529 10418; G2 XOR 3885 3529 10417; G2 AND 10418 10417 10416; G2 XOR 10416 3529 3528;
  G2 XOR 10415 3528 3932; G2 XOR 1059 3528 10414; G2 XOR 1058 3883 10411; G2 XOR 3884 3528 10413;
  G2 AND 10414 10413 10412; G2 XOR 10412 3528 3527; G2 XOR 10411 3527 3931; G2 XOR 1058 3527 10410;
  G2 XOR 1057 3882 10407; G2 XOR 3883 3527 10409; G2 AND 10410 10409 10408; G2 XOR 10408 3527 3526;
  G2 XOR 10407 3526 3930; G2 XOR 1057 3526 10406; G2 XOR 1056 3881 10403; G2 XOR 3882 3526 10405;
  G2 AND 10406 10405 10404; G2 XOR 10404 3526 3525; G2 XOR 10403 3525 3929; G2 XOR 1056 3525 10402;
  G2 XOR 1055 3880 10399; G2 XOR 3881 3525 10401; G2 AND 10402 10401 10400; G2 XOR 10400 3525 3524;
  G2 XOR 10399 3524 3928; G2 XOR 1055 3524 10398; G2 XOR 1054 3879 10395; G2 XOR 3880 3524 10397;
  G2 AND 10398 10397 10396; G2 XOR 10396 3524 3523; G2 XOR 10395 3523 3927; G2 XOR 1054 3523 10394;
  G2 XOR 1053 3878 10391; G2 XOR 3879 3523 10393; G2 AND 10394 10393 10392; G2 XOR 10392 3523 3522;
  G2 XOR 10391 3522 3926; G2 XOR 1053 3522 10390; G2 XOR 1052 3877 10387; G2 XOR 3878 3522 10389;
  G2 AND 10390 10389 10388; G2 XOR 10388 3522 3521; G2 XOR 10387 3521 3925; G2 XOR 1052 3521 10386;
  G2 XOR 1051 3876 10383; G2 XOR 3877 3521 10385; G2 AND 10386 10385 10384; G2 XOR 10384 3521 3520;
  G2 XOR 10383 3520 3924; G2 XOR 1051 3520 10382; G2 XOR 1050 3875 10379; G2 XOR 3876 3520 10381;
  G2 AND 10382 10381 10380; G2 XOR 10380 3520 3519; G2 XOR 10379 3519 3923; G2 XOR 1050 3519 10378;
  G2 XOR 1049 3874 10375; G2 XOR 3875 3519 10377; G2 AND 10378 10377 10376; G2 XOR 10376 3519 3518;
  G2 XOR 10375 3518 3922; G2 XOR 1049 3518 10374; G2 XOR 1048 3873 10371; G2 XOR 3874 3518 10373;
  G2 AND 10374 10373 10372; G2 XOR 10372 3518 3517; G2 XOR 10371 3517 3921; G2 XOR 1048 3517 10370;
  G2 XOR 1047 3872 10367; G2 XOR 3873 3517 10369; G2 AND 10370 10369 10368; G2 XOR 10368 3517 3516;
  G2 XOR 10367 3516 3920; G2 XOR 1047 3516 10366; G2 XOR 1046 3871 10363; G2 XOR 3872 3516 10365;
  G2 AND 10366 10365 10364; G2 XOR 10364 3516 3515; G2 XOR 10363 3515 3919; G2 XOR 1046 3515 10362;
  G2 XOR 1045 3870 10359; G2 XOR 3871 3515 10361; G2 AND 10362 10361 10360; G2 XOR 10360 3515 3514;
  G2 XOR 10359 3514 3918; G2 XOR 1045 3514 10358; G2 XOR 1044 3869 10355; G2 XOR 3870 3514 10357;
  G2 AND 10358 10357 10356; G2 XOR 10356 3514 3513; G2 XOR 10355 3513 3917; G2 XOR 1044 3513 10354;
  G2 XOR 1043 3868 10351; G2 XOR 3869 3513 10353; G2 AND 10354 10353 10352; G2 XOR 10352 3513 3512;
  G2 XOR 10351 3512 3916; G2 XOR 1043 3512 10350; G2 XOR 1042 3867 10347; G2 XOR 3868 3512 10349;
  G2 AND 10350 10349 10348; G2 XOR 10348 3512 3511; G2 XOR 10347 3511 3915; G2 XOR 1042 3511 10346;
  G2 XOR 1041 3866 10343; G2 XOR 3867 3511 10345; G2 AND 10346 10345 10344; G2 XOR 10344 3511 3510;
  G2 XOR 10343 3510 3914; G2 XOR 1041 3510 10342; G2 XOR 1040 3865 10339; G2 XOR 3866 3510 10341;
  G2 AND 10342 10341 10340; G2 XOR 10340 3510 3509; G2 XOR 10339 3509 3913; G2 XOR 1040 3509 10338;
  G2 XOR 1039 3864 10335; G2 XOR 3865 3509 10337; G2 AND 10338 10337 10336; G2 XOR 10336 3509 3508;
  G2 XOR 10335 3508 3912; G2 XOR 1039 3508 10334; G2 XOR 1038 3863 10331; G2 XOR 3864 3508 10333;
  G2 AND 10334 10333 10332; G2 XOR 10332 3508 3507; G2 XOR 10331 3507 3911; G2 XOR 1038 3507 10330;
  G2 XOR 1037 3862 10327; G2 XOR 3863 3507 10329; G2 AND 10330 10329 10328; G2 XOR 10328 3507 3506;
  G2 XOR 10327 3506 3910; G2 XOR 1037 3506 10326; G2 XOR 1036 3861 10323; G2 XOR 3862 3506 10325;
  G2 AND 10326 10325 10324; G2 XOR 10324 3506 3505; G2 XOR 10323 3505 3909; G2 XOR 1036 3505 10322;
  G2 XOR 1035 3860 10319; G2 XOR 3861 3505 10321; G2 AND 10322 10321 10320; G2 XOR 10320 3505 3504;
  G2 XOR 10319 3504 3908; G2 XOR 1035 3504 10318; G2 XOR 1034 3859 10315; G2 XOR 3860 3504 10317;
  G2 AND 10318 10317 10316; G2 XOR 10316 3504 3503; G2 XOR 10315 3503 3907; G2 XOR 1034 3503 10314;
  G2 XOR 1033 3858 10311; G2 XOR 3859 3503 10313; G2 AND 10314 10313 10312; G2 XOR 10312 3503 3502;
  G2 XOR 10311 3502 3906; G2 XOR 1033 3502 10310; G2 XOR 1032 3857 10307; G2 XOR 3858 3502 10309;
  G2 AND 10310 10309 10308; G2 XOR 10308 3502 3501; G2 XOR 10307 3501 3905; G2 XOR 1032 3501 10306;
  G2 XOR 1031 3856 10303; G2 XOR 3857 3501 10305; G2 AND 10306 10305 10304; G2 XOR 10304 3501 3500;
  G2 XOR 10303 3500 3904; G2 XOR 1118 3943 10278; G2 XOR 3943 3990 10276; G2 XOR 10278 3990 4330;
  G2 AND 10277 10276 10275; G2 XOR 10275 3990 3989; G2 XOR 1117 3942 10274; G2 XOR 3942 3989 10272;
  G2 XOR 10274 3989 4329; G2 XOR 1116 3941 10270; G2 XOR 1117 3989 10273; G2 AND 10273 10272 10271;
  G2 XOR 10271 3989 3988; G2 XOR 3941 3988 10268; G2 XOR 10270 3988 4328; G2 XOR 1115 3940 10266;
  G2 XOR 1116 3988 10269; G2 AND 10269 10268 10267; G2 XOR 10267 3988 3987; G2 XOR 1115 3987 10265;
  G2 XOR 10266 3987 4327; G2 XOR 3940 3987 10264; G2 AND 10265 10264 10263; G2 XOR 10263 3987 3986;
  G2 XOR 1114 3986 10261; G2 XOR 1114 3939 10262; G2 XOR 10262 3986 4326; G2 XOR 3939 3986 10260;
  G2 AND 10261 10260 10259; G2 XOR 10259 3986 3985; G2 XOR 1113 3985 10257; G2 XOR 1113 3938 10258;
  G2 XOR 10258 3985 4325; G2 XOR 3938 3985 10256; G2 AND 10257 10256 10255; G2 XOR 10255 3985 3984;
  G2 XOR 1112 3984 10253; G2 XOR 1112 3937 10254; G2 XOR 10254 3984 4324; G2 XOR 3937 3984 10252;
  G2 AND 10253 10252 10251; G2 XOR 10251 3984 3983; G2 XOR 1111 3983 10249; G2 XOR 1111 3936 10250;
  G2 XOR 10250 3983 4323; G2 XOR 3936 3983 10248; G2 AND 10249 10248 10247; G2 XOR 10247 3983 3982;
  G2 XOR 1110 3982 10245; G2 XOR 1110 3935 10246; G2 XOR 10246 3982 4322; G2 XOR 3935 3982 10244;
  G2 AND 10245 10244 10243; G2 XOR 10243 3982 3981; G2 XOR 1109 3981 10241; G2 XOR 1109 3934 10242;
  G2 XOR 10242 3981 4321; G2 XOR 3934 3981 10240; G2 AND 10241 10240 10239; G2 XOR 10239 3981 3980;
  G2 XOR 1108 3980 10237; G2 XOR 1108 3933 10238; G2 XOR 10238 3980 4320; G2 XOR 3933 3980 10236;
  G2 AND 10237 10236 10235; G2 XOR 10235 3980 3979; G2 XOR 1107 3979 10233; G2 XOR 1107 3932 10234;
  G2 XOR 10234 3979 4319; G2 XOR 3932 3979 10232; G2 AND 10233 10232 10231; G2 XOR 10231 3979 3978;
  G2 XOR 1106 3978 10229; G2 XOR 1106 3931 10230; G2 XOR 10230 3978 4318; G2 XOR 3931 3978 10228;
  G2 AND 10229 10228 10227; G2 XOR 10227 3978 3977; G2 XOR 1105 3977 10225; G2 XOR 1105 3930 10226;
  G2 XOR 10226 3977 4317; G2 XOR 3930 3977 10224; G2 AND 10225 10224 10223; G2 XOR 10223 3977 3976;
  G2 XOR 1104 3976 10221; G2 XOR 1104 3929 10222; G2 XOR 10222 3976 4316; G2 XOR 3929 3976 10220;
  G2 AND 10221 10220 10219; G2 XOR 10219 3976 3975; G2 XOR 1103 3975 10217; G2 XOR 1103 3928 10218;
  G2 XOR 10218 3975 4315; G2 XOR 3928 3975 10216; G2 AND 10217 10216 10215; G2 XOR 10215 3975 3974;
  G2 XOR 1102 3974 10213; G2 XOR 1102 3927 10214; G2 XOR 10214 3974 4314; G2 XOR 3927 3974 10212;
  G2 AND 10213 10212 10211; G2 XOR 10211 3974 3973; G2 XOR 1101 3973 10209; G2 XOR 1101 3926 10210;
  G2 XOR 10210 3973 4313; G2 XOR 3926 3973 10208; G2 AND 10209 10208 10207; G2 XOR 10207 3973 3972;
  G2 XOR 1100 3972 10205; G2 XOR 1100 3925 10206; G2 XOR 10206 3972 4312; G2 XOR 3925 3972 10204;
  G2 AND 10205 10204 10203; G2 XOR 10203 3972 3971; G2 XOR 1099 3971 10201; G2 XOR 1099 3924 10202;
  G2 XOR 10202 3971 4311; G2 XOR 3924 3971 10200; G2 AND 10201 10200 10199; G2 XOR 10199 3971 3970;
  G2 XOR 1098 3970 10197; G2 XOR 1098 3923 10198; G2 XOR 10198 3970 4310; G2 XOR 3923 3970 10196;
  G2 AND 10197 10196 10195; G2 XOR 10195 3970 3969; G2 XOR 1097 3969 10193; G2 XOR 1097 3922 10194;
  G2 XOR 10194 3969 4309; G2 XOR 3922 3969 10192; G2 AND 10193 10192 10191; G2 XOR 10191 3969 3968;
  G2 XOR 1096 3968 10189; G2 XOR 1096 3921 10190; G2 XOR 10190 3968 4308; G2 XOR 3921 3968 10188;
  G2 AND 10189 10188 10187; G2 XOR 10187 3968 3967; G2 XOR 1095 3967 10185; G2 XOR 1095 3920 10186;
  G2 XOR 10186 3967 4307; G2 XOR 3920 3967 10184; G2 AND 10185 10184 10183; G2 XOR 10183 3967 3966;
  G2 XOR 1094 3966 10181; G2 XOR 1094 3919 10182; G2 XOR 10182 3966 4306; G2 XOR 3919 3966 10180;
  G2 AND 10181 10180 10179; G2 XOR 10179 3966 3965; G2 XOR 1093 3965 10177; G2 XOR 1093 3918 10178;
  G2 XOR 10178 3965 4305; G2 XOR 3918 3965 10176; G2 AND 10177 10176 10175; G2 XOR 10175 3965 3964;
  G2 XOR 1092 3964 10173; G2 XOR 1092 3917 10174; G2 XOR 10174 3964 4304; G2 XOR 3917 3964 10172;
  G2 AND 10173 10172 10171; G2 XOR 10171 3964 3963; G2 XOR 1091 3963 10169; G2 XOR 1091 3916 10170;
  G2 XOR 10170 3963 4303; G2 XOR 3916 3963 10168; G2 AND 10169 10168 10167; G2 XOR 10167 3963 3962;
  G2 XOR 1090 3962 10165; G2 XOR 1090 3915 10166; G2 XOR 10166 3962 4302; G2 XOR 3915 3962 10164;
  G2 AND 10165 10164 10163; G2 XOR 10163 3962 3961; G2 XOR 1089 3961 10161; G2 XOR 1089 3914 10162;
  G2 XOR 10162 3961 4301; G2 XOR 3914 3961 10160; G2 AND 10161 10160 10159; G2 XOR 10159 3961 3960;
  G2 XOR 1088 3960 10157; G2 XOR 1088 3913 10158; G2 XOR 10158 3960 4300; G2 XOR 3913 3960 10156;
  G2 AND 10157 10156 10155; G2 XOR 10155 3960 3959; G2 XOR 1087 3959 10153; G2 XOR 1087 3912 10154;
  G2 XOR 10154 3959 4299; G2 XOR 3912 3959 10152; G2 AND 10153 10152 10151; G2 XOR 10151 3959 3958;
  G2 XOR 1086 3958 10149; G2 XOR 1086 3911 10150; G2 XOR 10150 3958 4298; G2 XOR 3911 3958 10148;
  G2 AND 10149 10148 10147; G2 XOR 10147 3958 3957; G2 XOR 1085 3957 10145; G2 XOR 1085 3910 10146;
  G2 XOR 10146 3957 4297; G2 XOR 3910 3957 10144; G2 AND 10145 10144 10143; G2 XOR 10143 3957 3956;
  G2 XOR 1084 3956 10141; G2 XOR 1084 3909 10142; G2 XOR 10142 3956 4296; G2 XOR 3909 3956 10140;
  G2 AND 10141 10140 10139; G2 XOR 10139 3956 3955; G2 XOR 1083 3955 10137; G2 XOR 1083 3908 10138;
  G2 XOR 10138 3955 4295; G2 XOR 3908 3955 10136; G2 AND 10137 10136 10135; G2 XOR 10135 3955 3954;
  G2 XOR 1082 3954 10133; G2 XOR 1082 3907 10134; G2 XOR 10134 3954 4294; G2 XOR 3907 3954 10132;
  G2 AND 10133 10132 10131; G2 XOR 10131 3954 3953; G2 XOR 1081 3953 10129; G2 XOR 1081 3906 10130;
  G2 XOR 10130 3953 4293; G2 XOR 3906 3953 10128; G2 AND 10129 10128 10127; G2 XOR 10127 3953 3952;
  G2 XOR 1080 3952 10125; G2 XOR 1080 3905 10126; G2 XOR 10126 3952 4292; G2 XOR 3905 3952 10124;
  G2 AND 10125 10124 10123; G2 XOR 10123 3952 3951; G2 XOR 1079 3904 10122; G2 XOR 10122 3951 4291;
  G2 XOR 1165 4330 10101; G2 XOR 10101 4036 4376; G2 XOR 4330 4036 10099; G2 AND 10100 10099 10098;
  G2 XOR 10098 4036 4035; G2 XOR 1164 4329 10097; G2 XOR 10097 4035 4375; G2 XOR 4329 4035 10095;
  G2 XOR 1164 4035 10096; G2 AND 10096 10095 10094; G2 XOR 10094 4035 4034; G2 XOR 1163 4328 10093;
  G2 XOR 10093 4034 4374; G2 XOR 4328 4034 10091; G2 XOR 1163 4034 10092; G2 AND 10092 10091 10090;
  G2 XOR 10090 4034 4033; G2 XOR 1162 4327 10089; G2 XOR 10089 4033 4373; G2 XOR 4327 4033 10087;
  G2 XOR 1162 4033 10088; G2 AND 10088 10087 10086; G2 XOR 10086 4033 4032; G2 XOR 1161 4326 10085;
  G2 XOR 10085 4032 4372; G2 XOR 4326 4032 10083; G2 XOR 1161 4032 10084; G2 AND 10084 10083 10082;
  G2 XOR 10082 4032 4031; G2 XOR 1160 4325 10081; G2 XOR 10081 4031 4371; G2 XOR 4325 4031 10079;
  G2 XOR 1160 4031 10080; G2 AND 10080 10079 10078; G2 XOR 10078 4031 4030; G2 XOR 1159 4324 10077;
  G2 XOR 10077 4030 4370; G2 XOR 4324 4030 10075; G2 XOR 1159 4030 10076; G2 AND 10076 10075 10074;
  G2 XOR 10074 4030 4029; G2 XOR 1158 4323 10073; G2 XOR 10073 4029 4369; G2 XOR 4323 4029 10071;
  G2 XOR 1158 4029 10072; G2 AND 10072 10071 10070; G2 XOR 10070 4029 4028; G2 XOR 1157 4322 10069;
  G2 XOR 10069 4028 4368; G2 XOR 4322 4028 10067; G2 XOR 1157 4028 10068; G2 AND 10068 10067 10066;
  G2 XOR 10066 4028 4027; G2 XOR 1156 4321 10065; G2 XOR 10065 4027 4367; G2 XOR 1156 4027 10064;
  G2 XOR 1155 4320 10061; G2 XOR 4321 4027 10063; G2 AND 10064 10063 10062; G2 XOR 10062 4027 4026;
  G2 XOR 10061 4026 4366; G2 XOR 1155 4026 10060; G2 XOR 1154 4319 10057; G2 XOR 4320 4026 10059;
  G2 AND 10060 10059 10058; G2 XOR 10058 4026 4025; G2 XOR 10057 4025 4365; G2 XOR 1154 4025 10056;
  G2 XOR 1153 4318 10053; G2 XOR 4319 4025 10055; G2 AND 10056 10055 10054; G2 XOR 10054 4025 4024;
  G2 XOR 10053 4024 4364; G2 XOR 1153 4024 10052; G2 XOR 1152 4317 10049; G2 XOR 4318 4024 10051;
  G2 AND 10052 10051 10050; G2 XOR 10050 4024 4023; G2 XOR 10049 4023 4363; G2 XOR 1152 4023 10048;
  G2 XOR 1151 4316 10045; G2 XOR 4317 4023 10047; G2 AND 10048 10047 10046; G2 XOR 10046 4023 4022;
  G2 XOR 10045 4022 4362; G2 XOR 1151 4022 10044; G2 XOR 1150 4315 10041; G2 XOR 4316 4022 10043;
  G2 AND 10044 10043 10042; G2 XOR 10042 4022 4021; G2 XOR 10041 4021 4361; G2 XOR 1150 4021 10040;
  G2 XOR 1149 4314 10037; G2 XOR 4315 4021 10039; G2 AND 10040 10039 10038; G2 XOR 10038 4021 4020;
  G2 XOR 10037 4020 4360; G2 XOR 1149 4020 10036; G2 XOR 1148 4313 10033; G2 XOR 4314 4020 10035;
  G2 AND 10036 10035 10034; G2 XOR 10034 4020 4019; G2 XOR 10033 4019 4359; G2 XOR 1148 4019 10032;
  G2 XOR 1147 4312 10029; G2 XOR 4313 4019 10031; G2 AND 10032 10031 10030; G2 XOR 10030 4019 4018;
  G2 XOR 10029 4018 4358; G2 XOR 1147 4018 10028; G2 XOR 1146 4311 10025; G2 XOR 4312 4018 10027;
  G2 AND 10028 10027 10026; G2 XOR 10026 4018 4017; G2 XOR 10025 4017 4357; G2 XOR 1146 4017 10024;
  G2 XOR 1145 4310 10021; G2 XOR 4311 4017 10023; G2 AND 10024 10023 10022; G2 XOR 10022 4017 4016;
  G2 XOR 10021 4016 4356; G2 XOR 1145 4016 10020; G2 XOR 1144 4309 10017; G2 XOR 4310 4016 10019;
  G2 AND 10020 10019 10018; G2 XOR 10018 4016 4015; G2 XOR 10017 4015 4355; G2 XOR 1144 4015 10016;
  G2 XOR 1143 4308 10013; G2 XOR 4309 4015 10015; G2 AND 10016 10015 10014; G2 XOR 10014 4015 4014;
  G2 XOR 10013 4014 4354; G2 XOR 1143 4014 10012; G2 XOR 1142 4307 10009; G2 XOR 4308 4014 10011;
  G2 AND 10012 10011 10010; G2 XOR 10010 4014 4013; G2 XOR 10009 4013 4353; G2 XOR 1142 4013 10008;
  G2 XOR 1141 4306 10005; G2 XOR 4307 4013 10007; G2 AND 10008 10007 10006; G2 XOR 10006 4013 4012;
  G2 XOR 10005 4012 4352; G2 XOR 1141 4012 10004; G2 XOR 1140 4305 10001; G2 XOR 4306 4012 10003;
  G2 AND 10004 10003 10002; G2 XOR 10002 4012 4011; G2 XOR 4305 4011 9999; G2 XOR 10001 4011 4351;
  G2 XOR 1140 4011 10000; G2 XOR 1139 4304 9997; G2 AND 10000 9999 9998; G2 XOR 9998 4011 4010;
  G2 XOR 4304 4010 9995; G2 XOR 9997 4010 4350; G2 XOR 1138 4303 9993; G2 XOR 1139 4010 9996;
  G2 AND 9996 9995 9994; G2 XOR 9994 4010 4009; G2 XOR 4303 4009 9991; G2 XOR 9993 4009 4349;
  G2 XOR 1137 4302 9989; G2 XOR 1138 4009 9992; G2 AND 9992 9991 9990; G2 XOR 9990 4009 4008;
  G2 XOR 4302 4008 9987; G2 XOR 9989 4008 4348; G2 XOR 1137 4008 9988; G2 AND 9988 9987 9986;
  G2 XOR 9986 4008 4007; G2 XOR 1136 4301 9985; G2 XOR 9985 4007 4347; G2 XOR 1136 4007 9984;
  G2 XOR 4301 4007 9983; G2 AND 9984 9983 9982; G2 XOR 9982 4007 4006; G2 XOR 1135 4300 9981;
  G2 XOR 9981 4006 4346; G2 XOR 1135 4006 9980; G2 XOR 4300 4006 9979; G2 AND 9980 9979 9978;
  G2 XOR 9978 4006 4005; G2 XOR 1134 4299 9977; G2 XOR 9977 4005 4345; G2 XOR 1134 4005 9976;
  G2 XOR 4299 4005 9975; G2 AND 9976 9975 9974; G2 XOR 9974 4005 4004; G2 XOR 4298 4004 9971;
  G2 XOR 1133 4298 9973; G2 XOR 9973 4004 4344; G2 XOR 1133 4004 9972; G2 AND 9972 9971 9970;
  G2 XOR 9970 4004 4003; G2 XOR 1132 4003 9968; G2 XOR 1132 4297 9969; G2 XOR 9969 4003 4343;
  G2 XOR 4297 4003 9967; G2 AND 9968 9967 9966; G2 XOR 9966 4003 4002; G2 XOR 1131 4002 9964;
  G2 XOR 1131 4296 9965; G2 XOR 9965 4002 4342; G2 XOR 4296 4002 9963; G2 AND 9964 9963 9962;
  G2 XOR 9962 4002 4001; G2 XOR 1130 4001 9960; G2 XOR 1130 4295 9961; G2 XOR 9961 4001 4341;
  G2 XOR 4295 4001 9959; G2 AND 9960 9959 9958; G2 XOR 9958 4001 4000; G2 XOR 1129 4000 9956;
  G2 XOR 1129 4294 9957; G2 XOR 9957 4000 4340; G2 XOR 4294 4000 9955; G2 AND 9956 9955 9954;
  G2 XOR 9954 4000 3999; G2 XOR 1128 3999 9952; G2 XOR 1128 4293 9953; G2 XOR 9953 3999 4339;
  G2 XOR 4293 3999 9951; G2 AND 9952 9951 9950; G2 XOR 9950 3999 3998; G2 XOR 1127 3998 9948;
  G2 XOR 1127 4292 9949; G2 XOR 9949 3998 4338; G2 XOR 4292 3998 9947; G2 AND 9948 9947 9946;
  G2 XOR 9946 3998 3997; G2 XOR 1126 4291 9945; G2 XOR 9945 3997 4337; G2 XOR 1211 4376 9928;
  G2 XOR 9928 4081 4421; G2 XOR 4376 4081 9926; G2 AND 9927 9926 9925; G2 XOR 9925 4081 4080;
  G2 XOR 1210 4375 9924; G2 XOR 9924 4080 4420; G2 XOR 1210 4080 9923; G2 XOR 4375 4080 9922;
  G2 AND 9923 9922 9921; G2 XOR 9921 4080 4079; G2 XOR 1209 4374 9920; G2 XOR 9920 4079 4419;
  G2 XOR 1209 4079 9919; G2 XOR 4374 4079 9918; G2 AND 9919 9918 9917; G2 XOR 9917 4079 4078;
  G2 XOR 1208 4373 9916; G2 XOR 9916 4078 4418; G2 XOR 1208 4078 9915; G2 XOR 4373 4078 9914;
  G2 AND 9915 9914 9913; G2 XOR 9913 4078 4077; G2 XOR 1207 4372 9912; G2 XOR 9912 4077 4417;
  G2 XOR 1252 4417 9743; G2 XOR 1207 4077 9911; G2 XOR 4372 4077 9910; G2 AND 9911 9910 9909;
  G2 XOR 9909 4077 4076; G2 XOR 4371 4076 9906; G2 XOR 1206 4371 9908; G2 XOR 9908 4076 4416;
  G2 XOR 1206 4076 9907; G2 AND 9907 9906 9905; G2 XOR 9905 4076 4075; G2 XOR 1205 4075 9903;
  G2 XOR 1205 4370 9904; G2 XOR 9904 4075 4415; G2 XOR 4370 4075 9902; G2 AND 9903 9902 9901;
  G2 XOR 9901 4075 4074; G2 XOR 1204 4074 9899; G2 XOR 1204 4369 9900; G2 XOR 9900 4074 4414;
  G2 XOR 4369 4074 9898; G2 AND 9899 9898 9897; G2 XOR 9897 4074 4073; G2 XOR 1203 4073 9895;
  G2 XOR 1203 4368 9896; G2 XOR 9896 4073 4413; G2 XOR 4368 4073 9894; G2 AND 9895 9894 9893;
  G2 XOR 9893 4073 4072; G2 XOR 1202 4072 9891; G2 XOR 1202 4367 9892; G2 XOR 9892 4072 4412;
  G2 XOR 4367 4072 9890; G2 AND 9891 9890 9889; G2 XOR 9889 4072 4071; G2 XOR 1201 4071 9887;
  G2 XOR 1201 4366 9888; G2 XOR 9888 4071 4411; G2 XOR 1246 4411 9719; G2 XOR 4366 4071 9886;
  G2 AND 9887 9886 9885; G2 XOR 9885 4071 4070; G2 XOR 1200 4070 9883; G2 XOR 1200 4365 9884;
  G2 XOR 9884 4070 4410; G2 XOR 1245 4410 9715; G2 XOR 4365 4070 9882; G2 AND 9883 9882 9881;
  G2 XOR 9881 4070 4069; G2 XOR 1199 4069 9879; G2 XOR 1199 4364 9880; G2 XOR 9880 4069 4409;
  G2 XOR 4364 4069 9878; G2 AND 9879 9878 9877; G2 XOR 9877 4069 4068; G2 XOR 4363 4068 9874;
  G2 XOR 1198 4363 9876; G2 XOR 9876 4068 4408; G2 XOR 1198 4068 9875; G2 AND 9875 9874 9873;
  G2 XOR 9873 4068 4067; G2 XOR 4362 4067 9870; G2 XOR 1197 4362 9872; G2 XOR 9872 4067 4407;
  G2 XOR 1197 4067 9871; G2 AND 9871 9870 9869; G2 XOR 9869 4067 4066; G2 XOR 4361 4066 9866;
  G2 XOR 1196 4361 9868; G2 XOR 9868 4066 4406; G2 XOR 1196 4066 9867; G2 AND 9867 9866 9865;
  G2 XOR 9865 4066 4065; G2 XOR 4360 4065 9862; G2 XOR 1195 4360 9864; G2 XOR 9864 4065 4405;
  G2 XOR 1195 4065 9863; G2 AND 9863 9862 9861; G2 XOR 9861 4065 4064; G2 XOR 1194 4064 9859;
  G2 XOR 1193 4358 9856; G2 XOR 1194 4359 9860; G2 XOR 9860 4064 4404; G2 XOR 4359 4064 9858;
  G2 AND 9859 9858 9857; G2 XOR 9857 4064 4063; G2 XOR 9856 4063 4403; G2 XOR 1192 4357 9852;
  G2 XOR 1193 4063 9855; G2 XOR 4358 4063 9854; G2 AND 9855 9854 9853; G2 XOR 9853 4063 4062;
  G2 XOR 9852 4062 4402; G2 XOR 1191 4356 9848; G2 XOR 1192 4062 9851; G2 XOR 4357 4062 9850;
  G2 AND 9851 9850 9849; G2 XOR 9849 4062 4061; G2 XOR 9848 4061 4401; G2 XOR 1190 4355 9844;
  G2 XOR 1191 4061 9847; G2 XOR 4356 4061 9846; G2 AND 9847 9846 9845; G2 XOR 9845 4061 4060;
  G2 XOR 9844 4060 4400; G2 XOR 1189 4354 9840; G2 XOR 1190 4060 9843; G2 XOR 4355 4060 9842;
  G2 AND 9843 9842 9841; G2 XOR 9841 4060 4059; G2 XOR 9840 4059 4399; G2 XOR 1188 4353 9836;
  G2 XOR 1189 4059 9839; G2 XOR 4354 4059 9838; G2 AND 9839 9838 9837; G2 XOR 9837 4059 4058;
  G2 XOR 1188 4058 9835; G2 XOR 9836 4058 4398; G2 XOR 4353 4058 9834; G2 AND 9835 9834 9833;
  G2 XOR 9833 4058 4057; G2 XOR 1187 4057 9831; G2 XOR 1187 4352 9832; G2 XOR 9832 4057 4397;
  G2 XOR 4352 4057 9830; G2 AND 9831 9830 9829; G2 XOR 9829 4057 4056; G2 XOR 1186 4056 9827;
  G2 XOR 1186 4351 9828; G2 XOR 9828 4056 4396; G2 XOR 1231 4396 9659; G2 XOR 4351 4056 9826;
  G2 AND 9827 9826 9825; G2 XOR 9825 4056 4055; G2 XOR 1185 4055 9823; G2 XOR 1185 4350 9824;
  G2 XOR 9824 4055 4395; G2 XOR 1230 4395 9655; G2 XOR 4350 4055 9822; G2 AND 9823 9822 9821;
  G2 XOR 9821 4055 4054; G2 XOR 1184 4054 9819; G2 XOR 1184 4349 9820; G2 XOR 9820 4054 4394;
  G2 XOR 4349 4054 9818; G2 AND 9819 9818 9817; G2 XOR 9817 4054 4053; G2 XOR 1183 4053 9815;
  G2 XOR 1183 4348 9816; G2 XOR 9816 4053 4393; G2 XOR 4348 4053 9814; G2 AND 9815 9814 9813;
  G2 XOR 9813 4053 4052; G2 XOR 1182 4052 9811; G2 XOR 4347 4052 9810; G2 AND 9811 9810 9809;
  G2 XOR 9809 4052 4051; G2 XOR 1181 4051 9807; G2 XOR 1182 4347 9812; G2 XOR 9812 4052 4392;
  G2 XOR 1181 4346 9808; G2 XOR 9808 4051 4391; G2 XOR 1226 4391 9639; G2 XOR 4346 4051 9806;
  G2 AND 9807 9806 9805; G2 XOR 9805 4051 4050; G2 XOR 1180 4345 9804; G2 XOR 9804 4050 4390;
  G2 XOR 1225 4390 9635; G2 XOR 4345 4050 9802; G2 XOR 1180 4050 9803; G2 AND 9803 9802 9801;
  G2 XOR 9801 4050 4049; G2 XOR 1179 4344 9800; G2 XOR 9800 4049 4389; G2 XOR 1224 4389 9631;
  G2 XOR 1179 4049 9799; G2 XOR 4344 4049 9798; G2 AND 9799 9798 9797; G2 XOR 9797 4049 4048;
  G2 XOR 1178 4048 9795; G2 XOR 1178 4343 9796; G2 XOR 9796 4048 4388; G2 XOR 4343 4048 9794;
  G2 AND 9795 9794 9793; G2 XOR 9793 4048 4047; G2 XOR 1177 4342 9792; G2 XOR 9792 4047 4387;
  G2 XOR 1222 4387 9623; G2 XOR 1177 4047 9791; G2 XOR 4342 4047 9790; G2 AND 9791 9790 9789;
  G2 XOR 9789 4047 4046; G2 XOR 1176 4046 9787; G2 XOR 1176 4341 9788; G2 XOR 9788 4046 4386;
  G2 XOR 4341 4046 9786; G2 AND 9787 9786 9785; G2 XOR 9785 4046 4045; G2 XOR 1175 4045 9783;
  G2 XOR 4340 4045 9782; G2 AND 9783 9782 9781; G2 XOR 9781 4045 4044; G2 XOR 1174 4044 9779;
  G2 XOR 1175 4340 9784; G2 XOR 9784 4045 4385; G2 XOR 1174 4339 9780; G2 XOR 9780 4044 4384;
  G2 XOR 4339 4044 9778; G2 AND 9779 9778 9777; G2 XOR 9777 4044 4043; G2 XOR 1173 4338 9776;
  G2 XOR 9776 4043 4383; G2 XOR 4338 4043 9774; G2 XOR 1173 4043 9775; G2 AND 9775 9774 9773;
  G2 XOR 9773 4043 4042; G2 XOR 1172 4337 9772; G2 XOR 9772 4042 4382; G2 XOR 1255 4420 9755;
  G2 XOR 1256 4421 9759; G2 XOR 9759 4125 4465; G2 XOR 1300 4465 9594; G2 XOR 4421 4125 9757;
  G2 AND 9758 9757 9756; G2 XOR 9756 4125 4124; G2 XOR 9755 4124 4464; G2 XOR 1254 4419 9751;
  G2 XOR 1255 4124 9754; G2 XOR 4420 4124 9753; G2 AND 9754 9753 9752; G2 XOR 9752 4124 4123;
  G2 XOR 9751 4123 4463; G2 XOR 1254 4123 9750; G2 XOR 4419 4123 9749; G2 AND 9750 9749 9748;
  G2 XOR 9748 4123 4122; G2 XOR 4418 4122 9745; G2 XOR 1253 4418 9747; G2 XOR 9747 4122 4462;
  G2 XOR 1253 4122 9746; G2 AND 9746 9745 9744; G2 XOR 9744 4122 4121; G2 XOR 9743 4121 4461;
  G2 XOR 1296 4461 9578; G2 XOR 1251 4416 9739; G2 XOR 1252 4121 9742; G2 XOR 4417 4121 9741;
  G2 AND 9742 9741 9740; G2 XOR 9740 4121 4120; G2 XOR 9739 4120 4460; G2 XOR 1251 4120 9738;
  G2 XOR 4416 4120 9737; G2 AND 9738 9737 9736; G2 XOR 9736 4120 4119; G2 XOR 1250 4415 9735;
  G2 XOR 9735 4119 4459; G2 XOR 4415 4119 9733; G2 XOR 1249 4414 9731; G2 XOR 1250 4119 9734;
  G2 AND 9734 9733 9732; G2 XOR 9732 4119 4118; G2 XOR 9731 4118 4458; G2 XOR 1293 4458 9566;
  G2 XOR 4414 4118 9729; G2 XOR 1249 4118 9730; G2 AND 9730 9729 9728; G2 XOR 9728 4118 4117;
  G2 XOR 4413 4117 9725; G2 XOR 1248 4413 9727; G2 XOR 9727 4117 4457; G2 XOR 1292 4457 9562;
  G2 XOR 1247 4412 9723; G2 XOR 1248 4117 9726; G2 AND 9726 9725 9724; G2 XOR 9724 4117 4116;
  G2 XOR 4412 4116 9721; G2 XOR 9723 4116 4456; G2 XOR 1247 4116 9722; G2 AND 9722 9721 9720;
  G2 XOR 9720 4116 4115; G2 XOR 9719 4115 4455; G2 XOR 4411 4115 9717; G2 XOR 1246 4115 9718;
  G2 AND 9718 9717 9716; G2 XOR 9716 4115 4114; G2 XOR 9715 4114 4454; G2 XOR 4410 4114 9713;
  G2 XOR 1245 4114 9714; G2 AND 9714 9713 9712; G2 XOR 9712 4114 4113; G2 XOR 1244 4113 9710;
  G2 XOR 4409 4113 9709; G2 XOR 1244 4409 9711; G2 XOR 9711 4113 4453; G2 XOR 1288 4453 9546;
  G2 AND 9710 9709 9708; G2 XOR 9708 4113 4112; G2 XOR 1243 4112 9706; G2 XOR 1243 4408 9707;
  G2 XOR 9707 4112 4452; G2 XOR 4408 4112 9705; G2 AND 9706 9705 9704; G2 XOR 9704 4112 4111;
  G2 XOR 1242 4407 9703; G2 XOR 9703 4111 4451; G2 XOR 1242 4111 9702; G2 XOR 4407 4111 9701;
  G2 AND 9702 9701 9700; G2 XOR 9700 4111 4110; G2 XOR 1241 4110 9698; G2 XOR 1241 4406 9699;
  G2 XOR 9699 4110 4450; G2 XOR 1285 4450 9534; G2 XOR 4406 4110 9697; G2 AND 9698 9697 9696;
  G2 XOR 9696 4110 4109; G2 XOR 1240 4109 9694; G2 XOR 4405 4109 9693; G2 XOR 1240 4405 9695;
  G2 XOR 9695 4109 4449; G2 XOR 1284 4449 9530; G2 XOR 1239 4404 9691; G2 AND 9694 9693 9692;
  G2 XOR 9692 4109 4108; G2 XOR 9691 4108 4448; G2 XOR 1239 4108 9690; G2 XOR 4404 4108 9689;
  G2 AND 9690 9689 9688; G2 XOR 9688 4108 4107; G2 XOR 4403 4107 9685; G2 XOR 1238 4403 9687;
  G2 XOR 9687 4107 4447; G2 XOR 1282 4447 9522; G2 XOR 1238 4107 9686; G2 AND 9686 9685 9684;
  G2 XOR 9684 4107 4106; G2 XOR 4402 4106 9681; G2 XOR 1237 4402 9683; G2 XOR 9683 4106 4446;
  G2 XOR 1281 4446 9518; G2 XOR 1237 4106 9682; G2 AND 9682 9681 9680; G2 XOR 9680 4106 4105;
  G2 XOR 1236 4105 9678; G2 XOR 1236 4401 9679; G2 XOR 9679 4105 4445; G2 XOR 1235 4400 9675;
  G2 XOR 4401 4105 9677; G2 AND 9678 9677 9676; G2 XOR 9676 4105 4104; G2 XOR 9675 4104 4444;
  G2 XOR 1235 4104 9674; G2 XOR 4400 4104 9673; G2 AND 9674 9673 9672; G2 XOR 9672 4104 4103;
  G2 XOR 1234 4103 9670; G2 XOR 1234 4399 9671; G2 XOR 9671 4103 4443; G2 XOR 1278 4443 9506;
  G2 XOR 4399 4103 9669; G2 AND 9670 9669 9668; G2 XOR 9668 4103 4102; G2 XOR 4398 4102 9665;
  G2 XOR 1233 4102 9666; G2 XOR 1233 4398 9667; G2 XOR 9667 4102 4442; G2 XOR 1277 4442 9502;
  G2 AND 9666 9665 9664; G2 XOR 9664 4102 4101; G2 XOR 4397 4101 9661; G2 XOR 1232 4101 9662;
  G2 AND 9662 9661 9660; G2 XOR 1232 4397 9663; G2 XOR 9663 4101 4441; G2 XOR 9660 4101 4100;
  G2 XOR 9659 4100 4440; G2 XOR 1275 4440 9494; G2 XOR 1231 4100 9658; G2 XOR 4396 4100 9657;
  G2 AND 9658 9657 9656; G2 XOR 9656 4100 4099; G2 XOR 1230 4099 9654; G2 XOR 4395 4099 9653;
  G2 AND 9654 9653 9652; G2 XOR 9655 4099 4439; G2 XOR 1274 4439 9490; G2 XOR 9652 4099 4098;
  G2 XOR 1229 4098 9650; G2 XOR 4394 4098 9649; G2 XOR 1229 4394 9651; G2 XOR 9651 4098 4438;
  G2 XOR 1228 4393 9647; G2 AND 9650 9649 9648; G2 XOR 9648 4098 4097; G2 XOR 9647 4097 4437;
  G2 XOR 4393 4097 9645; G2 XOR 1228 4097 9646; G2 AND 9646 9645 9644; G2 XOR 9644 4097 4096;
  G2 XOR 4392 4096 9641; G2 XOR 1227 4096 9642; G2 AND 9642 9641 9640; G2 XOR 1227 4392 9643;
  G2 XOR 9643 4096 4436; G2 XOR 1271 4436 9478; G2 XOR 9640 4096 4095; G2 XOR 1226 4095 9638;
  G2 XOR 4391 4095 9637; G2 AND 9638 9637 9636; G2 XOR 9636 4095 4094; G2 XOR 9635 4094 4434;
  G2 XOR 1225 4094 9634; G2 XOR 9639 4095 4435; G2 XOR 1270 4435 9474; G2 XOR 4390 4094 9633;
  G2 AND 9634 9633 9632; G2 XOR 9632 4094 4093; G2 XOR 4389 4093 9629; G2 XOR 1224 4093 9630;
  G2 AND 9630 9629 9628; G2 XOR 9628 4093 4092; G2 XOR 1223 4092 9626; G2 XOR 9631 4093 4433;
  G2 XOR 1268 4433 9466; G2 XOR 1223 4388 9627; G2 XOR 9627 4092 4432; G2 XOR 1267 4432 9462;
  G2 XOR 4388 4092 9625; G2 AND 9626 9625 9624; G2 XOR 9624 4092 4091; G2 XOR 4387 4091 9621;
  G2 XOR 1222 4091 9622; G2 AND 9622 9621 9620; G2 XOR 9620 4091 4090; G2 XOR 1221 4090 9618;
  G2 XOR 1221 4386 9619; G2 XOR 9623 4091 4431; G2 XOR 9619 4090 4430; G2 XOR 4386 4090 9617;
  G2 AND 9618 9617 9616; G2 XOR 9616 4090 4089; G2 XOR 4385 4089 9613; G2 XOR 1220 4385 9615;
  G2 XOR 9615 4089 4429; G2 XOR 1264 4429 9450; G2 XOR 1220 4089 9614; G2 AND 9614 9613 9612;
  G2 XOR 9612 4089 4088; G2 XOR 4384 4088 9609; G2 XOR 1219 4384 9611; G2 XOR 9611 4088 4428;
  G2 XOR 1263 4428 9446; G2 XOR 1219 4088 9610; G2 AND 9610 9609 9608; G2 XOR 9608 4088 4087;
  G2 XOR 1218 4087 9606; G2 XOR 4383 4087 9605; G2 XOR 1218 4383 9607; G2 XOR 9607 4087 4427;
  G2 XOR 1262 4427 9442; G2 XOR 1217 4382 9603; G2 AND 9606 9605 9604; G2 XOR 9604 4087 4086;
  G2 XOR 9603 4086 4426; G2 XOR 1261 4426 9438; G2 XOR 4465 4168 9592; G2 XOR 9594 4168 4508;
  G2 XOR 1343 4508 9433; G2 XOR 4508 4210 9431; G2 AND 9432 9431 9430; G2 AND 9593 9592 9591;
  G2 XOR 9591 4168 4167; G2 XOR 4464 4167 9588; G2 XOR 1299 4464 9590; G2 XOR 9590 4167 4507;
  G2 XOR 1342 4507 9429; G2 XOR 1298 4463 9586; G2 XOR 1299 4167 9589; G2 AND 9589 9588 9587;
  G2 XOR 9587 4167 4166; G2 XOR 9586 4166 4506; G2 XOR 1341 4506 9425; G2 XOR 1298 4166 9585;
  G2 XOR 4463 4166 9584; G2 AND 9585 9584 9583; G2 XOR 9583 4166 4165; G2 XOR 1297 4462 9582;
  G2 XOR 9582 4165 4505; G2 XOR 1340 4505 9421; G2 XOR 1297 4165 9581; G2 XOR 4462 4165 9580;
  G2 AND 9581 9580 9579; G2 XOR 9579 4165 4164; G2 XOR 1296 4164 9577; G2 XOR 9578 4164 4504;
  G2 XOR 1339 4504 9417; G2 XOR 4461 4164 9576; G2 AND 9577 9576 9575; G2 XOR 9575 4164 4163;
  G2 XOR 1295 4163 9573; G2 XOR 4460 4163 9572; G2 AND 9573 9572 9571; G2 XOR 9571 4163 4162;
  G2 XOR 4459 4162 9568; G2 XOR 1295 4460 9574; G2 XOR 9574 4163 4503; G2 XOR 1338 4503 9413;
  G2 XOR 1294 4162 9569; G2 AND 9569 9568 9567; G2 XOR 1294 4459 9570; G2 XOR 9570 4162 4502;
  G2 XOR 1337 4502 9409; G2 XOR 9567 4162 4161; G2 XOR 1293 4161 9565; G2 XOR 9566 4161 4501;
  G2 XOR 1336 4501 9405; G2 XOR 4458 4161 9564; G2 AND 9565 9564 9563; G2 XOR 9563 4161 4160;
  G2 XOR 1292 4160 9561; G2 XOR 4457 4160 9560; G2 XOR 9562 4160 4500; G2 XOR 1335 4500 9401;
  G2 AND 9561 9560 9559; G2 XOR 9559 4160 4159; G2 XOR 4456 4159 9556; G2 XOR 1291 4456 9558;
  G2 XOR 9558 4159 4499; G2 XOR 1334 4499 9397; G2 XOR 1290 4455 9554; G2 XOR 1291 4159 9557;
  G2 AND 9557 9556 9555; G2 XOR 9555 4159 4158; G2 XOR 9554 4158 4498; G2 XOR 1333 4498 9393;
  G2 XOR 1290 4158 9553; G2 XOR 4455 4158 9552; G2 AND 9553 9552 9551; G2 XOR 9551 4158 4157;
  G2 XOR 1289 4454 9550; G2 XOR 9550 4157 4497; G2 XOR 1332 4497 9389; G2 XOR 1289 4157 9549;
  G2 XOR 4454 4157 9548; G2 AND 9549 9548 9547; G2 XOR 9547 4157 4156; G2 XOR 1288 4156 9545;
  G2 XOR 9546 4156 4496; G2 XOR 1331 4496 9385; G2 XOR 4453 4156 9544; G2 AND 9545 9544 9543;
  G2 XOR 9543 4156 4155; G2 XOR 1287 4155 9541; G2 XOR 4452 4155 9540; G2 AND 9541 9540 9539;
  G2 XOR 9539 4155 4154; G2 XOR 4451 4154 9536; G2 XOR 1287 4452 9542; G2 XOR 9542 4155 4495;
  G2 XOR 1330 4495 9381; G2 XOR 1286 4154 9537; G2 AND 9537 9536 9535; G2 XOR 1286 4451 9538;
  G2 XOR 9538 4154 4494; G2 XOR 1329 4494 9377; G2 XOR 9535 4154 4153; G2 XOR 1285 4153 9533;
  G2 XOR 9534 4153 4493; G2 XOR 1328 4493 9373; G2 XOR 4450 4153 9532; G2 AND 9533 9532 9531;
  G2 XOR 9531 4153 4152; G2 XOR 1284 4152 9529; G2 XOR 4449 4152 9528; G2 XOR 9530 4152 4492;
  G2 XOR 1327 4492 9369; G2 AND 9529 9528 9527; G2 XOR 9527 4152 4151; G2 XOR 4448 4151 9524;
  G2 XOR 1283 4151 9525; G2 XOR 1283 4448 9526; G2 XOR 9526 4151 4491; G2 AND 9525 9524 9523;
  G2 XOR 9523 4151 4150; G2 XOR 1282 4150 9521; G2 XOR 9522 4150 4490; G2 XOR 1325 4490 9361;
  G2 XOR 4447 4150 9520; G2 AND 9521 9520 9519; G2 XOR 9519 4150 4149; G2 XOR 4446 4149 9516;
  G2 XOR 1281 4149 9517; G2 XOR 9518 4149 4489; G2 XOR 1324 4489 9357; G2 AND 9517 9516 9515;
  G2 XOR 9515 4149 4148; G2 XOR 4445 4148 9512; G2 XOR 1280 4445 9514; G2 XOR 9514 4148 4488;
  G2 XOR 1323 4488 9353; G2 XOR 1280 4148 9513; G2 AND 9513 9512 9511; G2 XOR 9511 4148 4147;
  G2 XOR 1279 4147 9509; G2 XOR 1279 4444 9510; G2 XOR 9510 4147 4487; G2 XOR 1322 4487 9349;
  G2 XOR 4444 4147 9508; G2 AND 9509 9508 9507; G2 XOR 9507 4147 4146; G2 XOR 1278 4146 9505;
  G2 XOR 4443 4146 9504; G2 XOR 9506 4146 4486; G2 XOR 1321 4486 9345; G2 AND 9505 9504 9503;
  G2 XOR 9503 4146 4145; G2 XOR 4442 4145 9500; G2 XOR 9502 4145 4485; G2 XOR 1320 4485 9341;
  G2 XOR 1277 4145 9501; G2 AND 9501 9500 9499; G2 XOR 9499 4145 4144; G2 XOR 1276 4441 9498;
  G2 XOR 9498 4144 4484; G2 XOR 1319 4484 9337; G2 XOR 1276 4144 9497; G2 XOR 4441 4144 9496;
  G2 AND 9497 9496 9495; G2 XOR 9495 4144 4143; G2 XOR 1275 4143 9493; G2 XOR 9494 4143 4483;
  G2 XOR 1318 4483 9333; G2 XOR 4440 4143 9492; G2 AND 9493 9492 9491; G2 XOR 9491 4143 4142;
  G2 XOR 4439 4142 9488; G2 XOR 1274 4142 9489; G2 XOR 9490 4142 4482; G2 XOR 1317 4482 9329;
  G2 AND 9489 9488 9487; G2 XOR 9487 4142 4141; G2 XOR 4438 4141 9484; G2 XOR 1273 4438 9486;
  G2 XOR 9486 4141 4481; G2 XOR 1316 4481 9325; G2 XOR 1273 4141 9485; G2 AND 9485 9484 9483;
  G2 XOR 9483 4141 4140; G2 XOR 1272 4140 9481; G2 XOR 1272 4437 9482; G2 XOR 9482 4140 4480;
  G2 XOR 1315 4480 9321; G2 XOR 4437 4140 9480; G2 AND 9481 9480 9479; G2 XOR 9479 4140 4139;
  G2 XOR 4436 4139 9476; G2 XOR 9478 4139 4479; G2 XOR 1271 4139 9477; G2 XOR 1314 4479 9317;
  G2 AND 9477 9476 9475; G2 XOR 9475 4139 4138; G2 XOR 4435 4138 9472; G2 XOR 9474 4138 4478;
  G2 XOR 1313 4478 9313; G2 XOR 1270 4138 9473; G2 AND 9473 9472 9471; G2 XOR 9471 4138 4137;
  G2 XOR 1269 4434 9470; G2 XOR 9470 4137 4477; G2 XOR 1312 4477 9309; G2 XOR 1269 4137 9469;
  G2 XOR 4434 4137 9468; G2 AND 9469 9468 9467; G2 XOR 9467 4137 4136; G2 XOR 1268 4136 9465;
  G2 XOR 9466 4136 4476; G2 XOR 1311 4476 9305; G2 XOR 4433 4136 9464; G2 AND 9465 9464 9463;
  G2 XOR 9463 4136 4135; G2 XOR 1267 4135 9461; G2 XOR 4432 4135 9460; G2 XOR 9462 4135 4475;
  G2 XOR 1310 4475 9301; G2 AND 9461 9460 9459; G2 XOR 9459 4135 4134; G2 XOR 4431 4134 9456;
  G2 XOR 1266 4431 9458; G2 XOR 9458 4134 4474; G2 XOR 1309 4474 9297; G2 XOR 1266 4134 9457;
  G2 AND 9457 9456 9455; G2 XOR 9455 4134 4133; G2 XOR 1265 4133 9453; G2 XOR 1265 4430 9454;
  G2 XOR 9454 4133 4473; G2 XOR 1308 4473 9293; G2 XOR 4430 4133 9452; G2 AND 9453 9452 9451;
  G2 XOR 9451 4133 4132; G2 XOR 4429 4132 9448; G2 XOR 9450 4132 4472; G2 XOR 1264 4132 9449;
  G2 XOR 1307 4472 9289; G2 AND 9449 9448 9447; G2 XOR 9447 4132 4131; G2 XOR 4428 4131 9444;
  G2 XOR 9446 4131 4471; G2 XOR 1306 4471 9285; G2 XOR 1263 4131 9445; G2 AND 9445 9444 9443;
  G2 XOR 9443 4131 4130; G2 XOR 4427 4130 9440; G2 XOR 1262 4130 9441; G2 AND 9441 9440 9439;
  G2 XOR 9442 4130 4470; G2 XOR 1305 4470 9281; G2 XOR 9439 4130 4129; G2 XOR 9438 4129 4469;
  G2 XOR 1304 4469 9277; G2 XOR 9433 4210 4550; G2 XOR 4550 4251 9274; G2 XOR 1385 4550 9276;
  G2 XOR 9276 4251 4591; G2 XOR 1426 4591 13763; G2 AND 1426 4591 4290; G2 XOR 1425 4290 9118;
  G2 AND 9275 9274 9273; G2 XOR 9273 4251 4250; G2 XOR 1384 4250 9271; G2 XOR 9430 4210 4209;
  G2 XOR 4507 4209 9427; G2 XOR 9429 4209 4549; G2 XOR 4549 4250 9270; G2 XOR 1342 4209 9428;
  G2 AND 9428 9427 9426; G2 XOR 9426 4209 4208; G2 XOR 4506 4208 9423; G2 XOR 9425 4208 4548;
  G2 XOR 1383 4548 9268; G2 AND 9271 9270 9269; G2 XOR 1384 4549 9272; G2 XOR 9272 4250 4590;
  G2 XOR 1425 4590 9119; G2 XOR 9119 4290 4630; G2 XOR 1465 4630 13764; G2 AND 1465 4630 4668;
  G2 XOR 4590 4290 9117; G2 AND 9118 9117 9116; G2 XOR 9116 4290 4289; G2 XOR 1424 4289 9114;
  G2 XOR 1464 4668 8965; G2 XOR 9269 4250 4249; G2 XOR 1383 4249 9267; G2 XOR 4548 4249 9266;
  G2 XOR 9268 4249 4589; G2 XOR 1424 4589 9115; G2 XOR 9115 4289 4629; G2 XOR 4589 4289 9113;
  G2 AND 9114 9113 9112; G2 XOR 9112 4289 4288; G2 XOR 1423 4288 9110; G2 XOR 1464 4629 8966;
  G2 XOR 8966 4668 4944; G2 XOR 1503 4944 13765; G2 AND 1503 4944 4705; G2 XOR 4629 4668 8964;
  G2 AND 8965 8964 8963; G2 XOR 8963 4668 4667; G2 XOR 1463 4667 8961; G2 XOR 1502 4705 8816;
  G2 AND 9267 9266 9265; G2 XOR 9265 4249 4248; G2 XOR 1382 4248 9263; G2 XOR 1341 4208 9424;
  G2 AND 9424 9423 9422; G2 XOR 9422 4208 4207; G2 XOR 1340 4207 9420; G2 XOR 9421 4207 4547;
  G2 XOR 4547 4248 9262; G2 AND 9263 9262 9261; G2 XOR 9261 4248 4247; G2 XOR 1382 4547 9264;
  G2 XOR 9264 4248 4588; G2 XOR 1423 4588 9111; G2 XOR 9111 4288 4628; G2 XOR 4588 4288 9109;
  G2 AND 9110 9109 9108; G2 XOR 9108 4288 4287; G2 XOR 1422 4287 9106; G2 XOR 1463 4628 8962;
  G2 XOR 8962 4667 4943; G2 XOR 4628 4667 8960; G2 AND 8961 8960 8959; G2 XOR 8959 4667 4666;
  G2 XOR 1462 4666 8957; G2 XOR 4943 4705 8815; G2 XOR 1502 4943 8817; G2 XOR 8817 4705 4981;
  G2 XOR 1540 4981 13766; G2 AND 1540 4981 4741; G2 AND 8816 8815 8814; G2 XOR 8814 4705 4704;
  G2 XOR 1501 4704 8812; G2 XOR 1539 4741 8671; G2 XOR 1381 4247 9259; G2 XOR 4505 4207 9419;
  G2 AND 9420 9419 9418; G2 XOR 9418 4207 4206; G2 XOR 9417 4206 4546; G2 XOR 1339 4206 9416;
  G2 XOR 4504 4206 9415; G2 AND 9416 9415 9414; G2 XOR 9414 4206 4205; G2 XOR 9413 4205 4545;
  G2 XOR 1338 4205 9412; G2 XOR 4503 4205 9411; G2 AND 9412 9411 9410; G2 XOR 9410 4205 4204;
  G2 XOR 9409 4204 4544; G2 XOR 4502 4204 9407; G2 XOR 1337 4204 9408; G2 AND 9408 9407 9406;
  G2 XOR 9406 4204 4203; G2 XOR 1336 4203 9404; G2 XOR 4501 4203 9403; G2 XOR 9405 4203 4543;
  G2 AND 9404 9403 9402; G2 XOR 9402 4203 4202; G2 XOR 9401 4202 4542; G2 XOR 1377 4542 9244;
  G2 XOR 4500 4202 9399; G2 XOR 1335 4202 9400; G2 AND 9400 9399 9398; G2 XOR 9398 4202 4201;
  G2 XOR 9397 4201 4541; G2 XOR 1334 4201 9396; G2 XOR 4499 4201 9395; G2 AND 9396 9395 9394;
  G2 XOR 9394 4201 4200; G2 XOR 9393 4200 4540; G2 XOR 1375 4540 9236; G2 XOR 4498 4200 9391;
  G2 XOR 1333 4200 9392; G2 AND 9392 9391 9390; G2 XOR 9390 4200 4199; G2 XOR 9389 4199 4539;
  G2 XOR 1374 4539 9232; G2 XOR 4497 4199 9387; G2 XOR 1332 4199 9388; G2 XOR 4546 4247 9258;
  G2 AND 9259 9258 9257; G2 XOR 9257 4247 4246; G2 XOR 1381 4546 9260; G2 XOR 9260 4247 4587;
  G2 XOR 1422 4587 9107; G2 XOR 9107 4287 4627; G2 XOR 4587 4287 9105; G2 AND 9106 9105 9104;
  G2 XOR 9104 4287 4286; G2 XOR 1421 4286 9102; G2 XOR 1462 4627 8958; G2 XOR 8958 4666 4942;
  G2 XOR 4627 4666 8956; G2 AND 8957 8956 8955; G2 XOR 8955 4666 4665; G2 XOR 1461 4665 8953;
  G2 XOR 4942 4704 8811; G2 XOR 1501 4942 8813; G2 XOR 8813 4704 4980; G2 AND 8812 8811 8810;
  G2 XOR 8810 4704 4703; G2 XOR 1500 4703 8808; G2 XOR 1539 4980 8672; G2 XOR 8672 4741 5017;
  G2 XOR 1576 5017 13767; G2 AND 1576 5017 4776; G2 XOR 4980 4741 8670; G2 AND 8671 8670 8669;
  G2 XOR 8669 4741 4740; G2 XOR 1538 4740 8667; G2 XOR 1575 4776 8530; G2 XOR 1380 4246 9255;
  G2 XOR 1380 4545 9256; G2 XOR 9256 4246 4586; G2 XOR 1421 4586 9103; G2 XOR 9103 4286 4626;
  G2 XOR 4586 4286 9101; G2 AND 9102 9101 9100; G2 XOR 9100 4286 4285; G2 XOR 1420 4285 9098;
  G2 XOR 1461 4626 8954; G2 XOR 8954 4665 4941; G2 XOR 4626 4665 8952; G2 AND 8953 8952 8951;
  G2 XOR 8951 4665 4664; G2 XOR 1460 4664 8949; G2 XOR 4941 4703 8807; G2 XOR 1500 4941 8809;
  G2 XOR 8809 4703 4979; G2 AND 8808 8807 8806; G2 XOR 8806 4703 4702; G2 XOR 1499 4702 8804;
  G2 XOR 1538 4979 8668; G2 XOR 8668 4740 5016; G2 XOR 4979 4740 8666; G2 AND 8667 8666 8665;
  G2 XOR 8665 4740 4739; G2 XOR 1537 4739 8663; G2 XOR 1575 5016 8531; G2 XOR 8531 4776 5052;
  G2 XOR 1611 5052 13768; G2 AND 1611 5052 4810; G2 XOR 5016 4776 8529; G2 AND 8530 8529 8528;
  G2 XOR 8528 4776 4775; G2 XOR 1574 4775 8526; G2 XOR 1610 4810 8393; G2 XOR 4545 4246 9254;
  G2 AND 9255 9254 9253; G2 XOR 9253 4246 4245; G2 XOR 1379 4245 9251; G2 XOR 4544 4245 9250;
  G2 AND 9251 9250 9249; G2 XOR 1379 4544 9252; G2 XOR 9252 4245 4585; G2 XOR 1420 4585 9099;
  G2 XOR 9099 4285 4625; G2 XOR 4585 4285 9097; G2 AND 9098 9097 9096; G2 XOR 9096 4285 4284;
  G2 XOR 1419 4284 9094; G2 XOR 1460 4625 8950; G2 XOR 8950 4664 4940; G2 XOR 4625 4664 8948;
  G2 AND 8949 8948 8947; G2 XOR 8947 4664 4663; G2 XOR 1459 4663 8945; G2 XOR 4940 4702 8803;
  G2 XOR 1499 4940 8805; G2 XOR 8805 4702 4978; G2 AND 8804 8803 8802; G2 XOR 8802 4702 4701;
  G2 XOR 1498 4701 8800; G2 XOR 1537 4978 8664; G2 XOR 8664 4739 5015; G2 XOR 4978 4739 8662;
  G2 AND 8663 8662 8661; G2 XOR 8661 4739 4738; G2 XOR 1536 4738 8659; G2 XOR 1574 5015 8527;
  G2 XOR 8527 4775 5051; G2 XOR 5015 4775 8525; G2 AND 8526 8525 8524; G2 XOR 8524 4775 4774;
  G2 XOR 1573 4774 8522; G2 XOR 5051 4810 8392; G2 XOR 1610 5051 8394; G2 XOR 8394 4810 5086;
  G2 XOR 1645 5086 13769; G2 AND 1645 5086 4843; G2 XOR 1644 4843 8260; G2 AND 8393 8392 8391;
  G2 XOR 8391 4810 4809; G2 XOR 1609 4809 8389; G2 XOR 9249 4245 4244; G2 XOR 4543 4244 9246;
  G2 XOR 1378 4244 9247; G2 XOR 1378 4543 9248; G2 XOR 9248 4244 4584; G2 XOR 1419 4584 9095;
  G2 XOR 9095 4284 4624; G2 XOR 4584 4284 9093; G2 AND 9094 9093 9092; G2 XOR 9092 4284 4283;
  G2 XOR 1418 4283 9090; G2 XOR 1459 4624 8946; G2 XOR 8946 4663 4939; G2 XOR 4624 4663 8944;
  G2 AND 8945 8944 8943; G2 XOR 8943 4663 4662; G2 XOR 1458 4662 8941; G2 XOR 4939 4701 8799;
  G2 XOR 1498 4939 8801; G2 XOR 8801 4701 4977; G2 AND 8800 8799 8798; G2 XOR 8798 4701 4700;
  G2 XOR 1497 4700 8796; G2 XOR 1536 4977 8660; G2 XOR 8660 4738 5014; G2 XOR 4977 4738 8658;
  G2 AND 8659 8658 8657; G2 XOR 8657 4738 4737; G2 XOR 1535 4737 8655; G2 XOR 1573 5014 8523;
  G2 XOR 8523 4774 5050; G2 XOR 1609 5050 8390; G2 XOR 5014 4774 8521; G2 AND 8522 8521 8520;
  G2 XOR 8520 4774 4773; G2 XOR 1572 4773 8518; G2 XOR 8390 4809 5085; G2 XOR 1644 5085 8261;
  G2 XOR 5050 4809 8388; G2 AND 8389 8388 8387; G2 XOR 8387 4809 4808; G2 XOR 1608 4808 8385;
  G2 XOR 8261 4843 5119; G2 XOR 1678 5119 13770; G2 AND 1678 5119 4875; G2 XOR 1677 4875 8131;
  G2 XOR 5085 4843 8259; G2 AND 8260 8259 8258; G2 XOR 8258 4843 4842; G2 XOR 1643 4842 8256;
  G2 AND 9247 9246 9245; G2 XOR 9245 4244 4243; G2 XOR 9244 4243 4583; G2 XOR 1377 4243 9243;
  G2 XOR 4542 4243 9242; G2 AND 9243 9242 9241; G2 XOR 9241 4243 4242; G2 XOR 1418 4583 9091;
  G2 XOR 9091 4283 4623; G2 XOR 4583 4283 9089; G2 AND 9090 9089 9088; G2 XOR 9088 4283 4282;
  G2 XOR 1417 4282 9086; G2 XOR 1458 4623 8942; G2 XOR 8942 4662 4938; G2 XOR 4623 4662 8940;
  G2 AND 8941 8940 8939; G2 XOR 8939 4662 4661; G2 XOR 1457 4661 8937; G2 XOR 1497 4938 8797;
  G2 XOR 8797 4700 4976; G2 XOR 4938 4700 8795; G2 AND 8796 8795 8794; G2 XOR 8794 4700 4699;
  G2 XOR 1496 4699 8792; G2 XOR 1535 4976 8656; G2 XOR 8656 4737 5013; G2 XOR 4976 4737 8654;
  G2 AND 8655 8654 8653; G2 XOR 8653 4737 4736; G2 XOR 1534 4736 8651; G2 XOR 1572 5013 8519;
  G2 XOR 8519 4773 5049; G2 XOR 5013 4773 8517; G2 AND 8518 8517 8516; G2 XOR 8516 4773 4772;
  G2 XOR 1571 4772 8514; G2 XOR 5049 4808 8384; G2 XOR 1608 5049 8386; G2 XOR 8386 4808 5084;
  G2 AND 8385 8384 8383; G2 XOR 8383 4808 4807; G2 XOR 1607 4807 8381; G2 XOR 5084 4842 8255;
  G2 XOR 1643 5084 8257; G2 XOR 8257 4842 5118; G2 XOR 1677 5118 8132; G2 XOR 8132 4875 5151;
  G2 XOR 1710 5151 13771; G2 AND 1710 5151 4906; G2 AND 8256 8255 8254; G2 XOR 8254 4842 4841;
  G2 XOR 1642 4841 8252; G2 XOR 1376 4242 9239; G2 XOR 1376 4541 9240; G2 XOR 9240 4242 4582;
  G2 XOR 1417 4582 9087; G2 XOR 9087 4282 4622; G2 XOR 4582 4282 9085; G2 AND 9086 9085 9084;
  G2 XOR 9084 4282 4281; G2 XOR 1416 4281 9082; G2 XOR 1457 4622 8938; G2 XOR 8938 4661 4937;
  G2 XOR 4622 4661 8936; G2 AND 8937 8936 8935; G2 XOR 8935 4661 4660; G2 XOR 1456 4660 8933;
  G2 XOR 1496 4937 8793; G2 XOR 8793 4699 4975; G2 XOR 4937 4699 8791; G2 AND 8792 8791 8790;
  G2 XOR 8790 4699 4698; G2 XOR 1495 4698 8788; G2 XOR 1534 4975 8652; G2 XOR 8652 4736 5012;
  G2 XOR 4975 4736 8650; G2 AND 8651 8650 8649; G2 XOR 8649 4736 4735; G2 XOR 1533 4735 8647;
  G2 XOR 1571 5012 8515; G2 XOR 8515 4772 5048; G2 XOR 5012 4772 8513; G2 AND 8514 8513 8512;
  G2 XOR 8512 4772 4771; G2 XOR 1570 4771 8510; G2 XOR 1607 5048 8382; G2 XOR 8382 4807 5083;
  G2 XOR 5048 4807 8380; G2 AND 8381 8380 8379; G2 XOR 8379 4807 4806; G2 XOR 1606 4806 8377;
  G2 XOR 1642 5083 8253; G2 XOR 8253 4841 5117; G2 XOR 5083 4841 8251; G2 AND 8252 8251 8250;
  G2 XOR 8250 4841 4840; G2 XOR 1641 4840 8248; G2 XOR 5118 4875 8130; G2 AND 8131 8130 8129;
  G2 XOR 8129 4875 4874; G2 XOR 5117 4874 8126; G2 XOR 1676 5117 8128; G2 XOR 8128 4874 5150;
  G2 XOR 1709 5150 8007; G2 XOR 5150 4906 8005; G2 XOR 1676 4874 8127; G2 AND 8127 8126 8125;
  G2 XOR 8125 4874 4873; G2 XOR 1675 4873 8123; G2 XOR 8007 4906 5182; G2 XOR 1741 5182 13772;
  G2 AND 1741 5182 5212; G2 XOR 1740 5212 7885; G2 XOR 1709 4906 8006; G2 AND 8006 8005 8004;
  G2 XOR 8004 4906 4905; G2 XOR 1708 4905 8002; G2 AND 9388 9387 9386; G2 XOR 9386 4199 4198;
  G2 XOR 9385 4198 4538; G2 XOR 1373 4538 9228; G2 XOR 1331 4198 9384; G2 XOR 4496 4198 9383;
  G2 AND 9384 9383 9382; G2 XOR 9382 4198 4197; G2 XOR 9381 4197 4537; G2 XOR 1372 4537 9224;
  G2 XOR 4495 4197 9379; G2 XOR 1330 4197 9380; G2 AND 9380 9379 9378; G2 XOR 9378 4197 4196;
  G2 XOR 9377 4196 4536; G2 XOR 1371 4536 9220; G2 XOR 1329 4196 9376; G2 XOR 4494 4196 9375;
  G2 AND 9376 9375 9374; G2 XOR 9374 4196 4195; G2 XOR 9373 4195 4535; G2 XOR 1370 4535 9216;
  G2 XOR 4493 4195 9371; G2 XOR 1328 4195 9372; G2 AND 9372 9371 9370; G2 XOR 9370 4195 4194;
  G2 XOR 9369 4194 4534; G2 XOR 1369 4534 9212; G2 XOR 1327 4194 9368; G2 XOR 4492 4194 9367;
  G2 AND 9368 9367 9366; G2 XOR 9366 4194 4193; G2 XOR 4491 4193 9363; G2 XOR 1326 4193 9364;
  G2 AND 9364 9363 9362; G2 XOR 9362 4193 4192; G2 XOR 9361 4192 4532; G2 XOR 1367 4532 9204;
  G2 XOR 1325 4192 9360; G2 XOR 4490 4192 9359; G2 AND 9360 9359 9358; G2 XOR 9358 4192 4191;
  G2 XOR 9357 4191 4531; G2 XOR 1366 4531 9200; G2 XOR 4489 4191 9355; G2 XOR 1324 4191 9356;
  G2 AND 9356 9355 9354; G2 XOR 9354 4191 4190; G2 XOR 9353 4190 4530; G2 XOR 1365 4530 9196;
  G2 XOR 1323 4190 9352; G2 XOR 4488 4190 9351; G2 AND 9352 9351 9350; G2 XOR 9350 4190 4189;
  G2 XOR 9349 4189 4529; G2 XOR 1364 4529 9192; G2 XOR 4487 4189 9347; G2 XOR 1322 4189 9348;
  G2 AND 9348 9347 9346; G2 XOR 9346 4189 4188; G2 XOR 9345 4188 4528; G2 XOR 1363 4528 9188;
  G2 XOR 1321 4188 9344; G2 XOR 4486 4188 9343; G2 AND 9344 9343 9342; G2 XOR 9342 4188 4187;
  G2 XOR 9341 4187 4527; G2 XOR 1362 4527 9184; G2 XOR 4485 4187 9339; G2 XOR 1320 4187 9340;
  G2 AND 9340 9339 9338; G2 XOR 9338 4187 4186; G2 XOR 4484 4186 9335; G2 XOR 9337 4186 4526;
  G2 XOR 1361 4526 9180; G2 XOR 1319 4186 9336; G2 AND 9336 9335 9334; G2 XOR 9334 4186 4185;
  G2 XOR 9333 4185 4525; G2 XOR 1360 4525 9176; G2 XOR 1318 4185 9332; G2 XOR 4483 4185 9331;
  G2 AND 9332 9331 9330; G2 XOR 9330 4185 4184; G2 XOR 9329 4184 4524; G2 XOR 1359 4524 9172;
  G2 XOR 4482 4184 9327; G2 XOR 1317 4184 9328; G2 AND 9328 9327 9326; G2 XOR 9326 4184 4183;
  G2 XOR 9325 4183 4523; G2 XOR 1358 4523 9168; G2 XOR 1316 4183 9324; G2 XOR 4481 4183 9323;
  G2 AND 9324 9323 9322; G2 XOR 9322 4183 4182; G2 XOR 9321 4182 4522; G2 XOR 1357 4522 9164;
  G2 XOR 4480 4182 9319; G2 XOR 1315 4182 9320; G2 AND 9320 9319 9318; G2 XOR 9318 4182 4181;
  G2 XOR 9317 4181 4521; G2 XOR 1356 4521 9160; G2 XOR 4479 4181 9315; G2 XOR 1314 4181 9316;
  G2 AND 9316 9315 9314; G2 XOR 9314 4181 4180; G2 XOR 9313 4180 4520; G2 XOR 1355 4520 9156;
  G2 XOR 4478 4180 9311; G2 XOR 1313 4180 9312; G2 AND 9312 9311 9310; G2 XOR 9310 4180 4179;
  G2 XOR 4477 4179 9307; G2 XOR 1312 4179 9308; G2 XOR 9309 4179 4519; G2 XOR 1354 4519 9152;
  G2 AND 9308 9307 9306; G2 XOR 9306 4179 4178; G2 XOR 9305 4178 4518; G2 XOR 1353 4518 9148;
  G2 XOR 1311 4178 9304; G2 XOR 4476 4178 9303; G2 AND 9304 9303 9302; G2 XOR 9302 4178 4177;
  G2 XOR 9301 4177 4517; G2 XOR 1352 4517 9144; G2 XOR 1310 4177 9300; G2 XOR 4475 4177 9299;
  G2 AND 9300 9299 9298; G2 XOR 9298 4177 4176; G2 XOR 9297 4176 4516; G2 XOR 1351 4516 9140;
  G2 XOR 1309 4176 9296; G2 XOR 4474 4176 9295; G2 AND 9296 9295 9294; G2 XOR 9294 4176 4175;
  G2 XOR 1308 4175 9292; G2 XOR 9293 4175 4515; G2 XOR 1350 4515 9136; G2 XOR 4473 4175 9291;
  G2 AND 9292 9291 9290; G2 XOR 9290 4175 4174; G2 XOR 1307 4174 9288; G2 XOR 4472 4174 9287;
  G2 AND 9288 9287 9286; G2 XOR 9289 4174 4514; G2 XOR 1349 4514 9132; G2 XOR 9286 4174 4173;
  G2 XOR 9285 4173 4513; G2 XOR 1348 4513 9128; G2 XOR 1306 4173 9284; G2 XOR 4471 4173 9283;
  G2 AND 9284 9283 9282; G2 XOR 9282 4173 4172; G2 XOR 1305 4172 9280; G2 XOR 9281 4172 4512;
  G2 XOR 1347 4512 9124; G2 XOR 4470 4172 9279; G2 AND 9280 9279 9278; G2 XOR 9278 4172 4171;
  G2 XOR 9277 4171 4511; G2 XOR 1346 4511 9120; G2 XOR 1326 4491 9365; G2 XOR 9365 4193 4533;
  G2 XOR 1368 4533 9208; G2 XOR 4541 4242 9238; G2 AND 9239 9238 9237; G2 XOR 9237 4242 4241;
  G2 XOR 9236 4241 4581; G2 XOR 1375 4241 9235; G2 XOR 4540 4241 9234; G2 AND 9235 9234 9233;
  G2 XOR 9233 4241 4240; G2 XOR 9232 4240 4580; G2 XOR 1374 4240 9231; G2 XOR 4539 4240 9230;
  G2 AND 9231 9230 9229; G2 XOR 9229 4240 4239; G2 XOR 9228 4239 4579; G2 XOR 1373 4239 9227;
  G2 XOR 4538 4239 9226; G2 AND 9227 9226 9225; G2 XOR 9225 4239 4238; G2 XOR 9224 4238 4578;
  G2 XOR 4537 4238 9222; G2 XOR 1372 4238 9223; G2 AND 9223 9222 9221; G2 XOR 9221 4238 4237;
  G2 XOR 9220 4237 4577; G2 XOR 4536 4237 9218; G2 XOR 1371 4237 9219; G2 AND 9219 9218 9217;
  G2 XOR 9217 4237 4236; G2 XOR 9216 4236 4576; G2 XOR 1370 4236 9215; G2 XOR 4535 4236 9214;
  G2 AND 9215 9214 9213; G2 XOR 9213 4236 4235; G2 XOR 9212 4235 4575; G2 XOR 1369 4235 9211;
  G2 XOR 4534 4235 9210; G2 AND 9211 9210 9209; G2 XOR 9209 4235 4234; G2 XOR 9208 4234 4574;
  G2 XOR 1368 4234 9207; G2 XOR 4533 4234 9206; G2 AND 9207 9206 9205; G2 XOR 9205 4234 4233;
  G2 XOR 9204 4233 4573; G2 XOR 4532 4233 9202; G2 XOR 1367 4233 9203; G2 AND 9203 9202 9201;
  G2 XOR 9201 4233 4232; G2 XOR 9200 4232 4572; G2 XOR 4531 4232 9198; G2 XOR 1366 4232 9199;
  G2 AND 9199 9198 9197; G2 XOR 9197 4232 4231; G2 XOR 9196 4231 4571; G2 XOR 1365 4231 9195;
  G2 XOR 4530 4231 9194; G2 AND 9195 9194 9193; G2 XOR 9193 4231 4230; G2 XOR 9192 4230 4570;
  G2 XOR 1364 4230 9191; G2 XOR 4529 4230 9190; G2 AND 9191 9190 9189; G2 XOR 9189 4230 4229;
  G2 XOR 9188 4229 4569; G2 XOR 1363 4229 9187; G2 XOR 4528 4229 9186; G2 AND 9187 9186 9185;
  G2 XOR 9185 4229 4228; G2 XOR 9184 4228 4568; G2 XOR 1362 4228 9183; G2 XOR 4527 4228 9182;
  G2 AND 9183 9182 9181; G2 XOR 9181 4228 4227; G2 XOR 9180 4227 4567; G2 XOR 1361 4227 9179;
  G2 XOR 4526 4227 9178; G2 AND 9179 9178 9177; G2 XOR 9177 4227 4226; G2 XOR 9176 4226 4566;
  G2 XOR 1360 4226 9175; G2 XOR 4525 4226 9174; G2 AND 9175 9174 9173; G2 XOR 9173 4226 4225;
  G2 XOR 1359 4225 9171; G2 XOR 9172 4225 4565; G2 XOR 4524 4225 9170; G2 AND 9171 9170 9169;
  G2 XOR 9169 4225 4224; G2 XOR 9168 4224 4564; G2 XOR 1358 4224 9167; G2 XOR 4523 4224 9166;
  G2 AND 9167 9166 9165; G2 XOR 9165 4224 4223; G2 XOR 9164 4223 4563; G2 XOR 4522 4223 9162;
  G2 XOR 1357 4223 9163; G2 AND 9163 9162 9161; G2 XOR 9161 4223 4222; G2 XOR 9160 4222 4562;
  G2 XOR 4521 4222 9158; G2 XOR 1356 4222 9159; G2 AND 9159 9158 9157; G2 XOR 9157 4222 4221;
  G2 XOR 1355 4221 9155; G2 XOR 9156 4221 4561; G2 XOR 4520 4221 9154; G2 AND 9155 9154 9153;
  G2 XOR 9153 4221 4220; G2 XOR 1354 4220 9151; G2 XOR 9152 4220 4560; G2 XOR 4519 4220 9150;
  G2 AND 9151 9150 9149; G2 XOR 9149 4220 4219; G2 XOR 9148 4219 4559; G2 XOR 1353 4219 9147;
  G2 XOR 4518 4219 9146; G2 AND 9147 9146 9145; G2 XOR 9145 4219 4218; G2 XOR 9144 4218 4558;
  G2 XOR 4517 4218 9142; G2 XOR 1352 4218 9143; G2 AND 9143 9142 9141; G2 XOR 9141 4218 4217;
  G2 XOR 9140 4217 4557; G2 XOR 4516 4217 9138; G2 XOR 1351 4217 9139; G2 AND 9139 9138 9137;
  G2 XOR 9137 4217 4216; G2 XOR 1350 4216 9135; G2 XOR 9136 4216 4556; G2 XOR 4515 4216 9134;
  G2 AND 9135 9134 9133; G2 XOR 9133 4216 4215; G2 XOR 9132 4215 4555; G2 XOR 1349 4215 9131;
  G2 XOR 4514 4215 9130; G2 AND 9131 9130 9129; G2 XOR 9129 4215 4214; G2 XOR 9128 4214 4554;
  G2 XOR 1348 4214 9127; G2 XOR 4513 4214 9126; G2 AND 9127 9126 9125; G2 XOR 9125 4214 4213;
  G2 XOR 9124 4213 4553; G2 XOR 4512 4213 9122; G2 XOR 1347 4213 9123; G2 AND 9123 9122 9121;
  G2 XOR 9121 4213 4212; G2 XOR 9120 4212 4552; G2 XOR 1416 4581 9083; G2 XOR 4581 4281 9081;
  G2 AND 9082 9081 9080; G2 XOR 9080 4281 4280; G2 XOR 1415 4580 9079; G2 XOR 9079 4280 4620;
  G2 XOR 4580 4280 9077; G2 XOR 1415 4280 9078; G2 AND 9078 9077 9076; G2 XOR 9076 4280 4279;
  G2 XOR 1414 4579 9075; G2 XOR 9075 4279 4619; G2 XOR 1414 4279 9074; G2 XOR 4579 4279 9073;
  G2 AND 9074 9073 9072; G2 XOR 9072 4279 4278; G2 XOR 1413 4578 9071; G2 XOR 9071 4278 4618;
  G2 XOR 1413 4278 9070; G2 XOR 4578 4278 9069; G2 AND 9070 9069 9068; G2 XOR 9068 4278 4277;
  G2 XOR 1412 4577 9067; G2 XOR 9067 4277 4617; G2 XOR 1412 4277 9066; G2 XOR 1411 4576 9063;
  G2 XOR 4577 4277 9065; G2 AND 9066 9065 9064; G2 XOR 9064 4277 4276; G2 XOR 9063 4276 4616;
  G2 XOR 4576 4276 9061; G2 XOR 1411 4276 9062; G2 AND 9062 9061 9060; G2 XOR 9060 4276 4275;
  G2 XOR 1410 4575 9059; G2 XOR 9059 4275 4615; G2 XOR 4575 4275 9057; G2 XOR 1410 4275 9058;
  G2 AND 9058 9057 9056; G2 XOR 9056 4275 4274; G2 XOR 1409 4574 9055; G2 XOR 9055 4274 4614;
  G2 XOR 1409 4274 9054; G2 XOR 4574 4274 9053; G2 AND 9054 9053 9052; G2 XOR 9052 4274 4273;
  G2 XOR 1408 4573 9051; G2 XOR 9051 4273 4613; G2 XOR 1408 4273 9050; G2 XOR 4573 4273 9049;
  G2 AND 9050 9049 9048; G2 XOR 9048 4273 4272; G2 XOR 1407 4272 9046; G2 XOR 1407 4572 9047;
  G2 XOR 9047 4272 4612; G2 XOR 4572 4272 9045; G2 AND 9046 9045 9044; G2 XOR 9044 4272 4271;
  G2 XOR 1406 4571 9043; G2 XOR 9043 4271 4611; G2 XOR 1406 4271 9042; G2 XOR 1405 4570 9039;
  G2 XOR 4571 4271 9041; G2 AND 9042 9041 9040; G2 XOR 9040 4271 4270; G2 XOR 9039 4270 4610;
  G2 XOR 4570 4270 9037; G2 XOR 1405 4270 9038; G2 AND 9038 9037 9036; G2 XOR 9036 4270 4269;
  G2 XOR 1404 4569 9035; G2 XOR 9035 4269 4609; G2 XOR 4569 4269 9033; G2 XOR 1404 4269 9034;
  G2 AND 9034 9033 9032; G2 XOR 9032 4269 4268; G2 XOR 1403 4568 9031; G2 XOR 9031 4268 4608;
  G2 XOR 1403 4268 9030; G2 XOR 4568 4268 9029; G2 AND 9030 9029 9028; G2 XOR 9028 4268 4267;
  G2 XOR 1402 4567 9027; G2 XOR 9027 4267 4607; G2 XOR 1402 4267 9026; G2 XOR 4567 4267 9025;
  G2 AND 9026 9025 9024; G2 XOR 9024 4267 4266; G2 XOR 1401 4566 9023; G2 XOR 9023 4266 4606;
  G2 XOR 1401 4266 9022; G2 XOR 1400 4565 9019; G2 XOR 4566 4266 9021; G2 AND 9022 9021 9020;
  G2 XOR 9020 4266 4265; G2 XOR 9019 4265 4605; G2 XOR 4565 4265 9017; G2 XOR 1400 4265 9018;
  G2 AND 9018 9017 9016; G2 XOR 9016 4265 4264; G2 XOR 1399 4564 9015; G2 XOR 9015 4264 4604;
  G2 XOR 4564 4264 9013; G2 XOR 1399 4264 9014; G2 AND 9014 9013 9012; G2 XOR 9012 4264 4263;
  G2 XOR 1398 4563 9011; G2 XOR 9011 4263 4603; G2 XOR 1398 4263 9010; G2 XOR 4563 4263 9009;
  G2 AND 9010 9009 9008; G2 XOR 9008 4263 4262; G2 XOR 1397 4562 9007; G2 XOR 9007 4262 4602;
  G2 XOR 1397 4262 9006; G2 XOR 4562 4262 9005; G2 AND 9006 9005 9004; G2 XOR 9004 4262 4261;
  G2 XOR 1396 4561 9003; G2 XOR 9003 4261 4601; G2 XOR 1396 4261 9002; G2 XOR 1395 4560 8999;
  G2 XOR 4561 4261 9001; G2 AND 9002 9001 9000; G2 XOR 9000 4261 4260; G2 XOR 8999 4260 4600;
  G2 XOR 4560 4260 8997; G2 XOR 1395 4260 8998; G2 AND 8998 8997 8996; G2 XOR 8996 4260 4259;
  G2 XOR 1394 4559 8995; G2 XOR 8995 4259 4599; G2 XOR 4559 4259 8993; G2 XOR 1394 4259 8994;
  G2 AND 8994 8993 8992; G2 XOR 8992 4259 4258; G2 XOR 1393 4558 8991; G2 XOR 8991 4258 4598;
  G2 XOR 1393 4258 8990; G2 XOR 4558 4258 8989; G2 AND 8990 8989 8988; G2 XOR 8988 4258 4257;
  G2 XOR 1392 4557 8987; G2 XOR 8987 4257 4597; G2 XOR 1392 4257 8986; G2 XOR 4557 4257 8985;
  G2 AND 8986 8985 8984; G2 XOR 8984 4257 4256; G2 XOR 1391 4556 8983; G2 XOR 8983 4256 4596;
  G2 XOR 1391 4256 8982; G2 XOR 1390 4555 8979; G2 XOR 4556 4256 8981; G2 AND 8982 8981 8980;
  G2 XOR 8980 4256 4255; G2 XOR 8979 4255 4595; G2 XOR 4555 4255 8977; G2 XOR 1390 4255 8978;
  G2 AND 8978 8977 8976; G2 XOR 8976 4255 4254; G2 XOR 1389 4554 8975; G2 XOR 8975 4254 4594;
  G2 XOR 4554 4254 8973; G2 XOR 1389 4254 8974; G2 AND 8974 8973 8972; G2 XOR 8972 4254 4253;
  G2 XOR 1388 4553 8971; G2 XOR 8971 4253 4593; G2 XOR 1388 4253 8970; G2 XOR 4553 4253 8969;
  G2 AND 8970 8969 8968; G2 XOR 8968 4253 4252; G2 XOR 1387 4552 8967; G2 XOR 8967 4252 4592;
  G2 XOR 1455 4620 8930; G2 XOR 1454 4619 8926; G2 XOR 1453 4618 8922; G2 XOR 1452 4617 8918;
  G2 XOR 1451 4616 8914; G2 XOR 1450 4615 8910; G2 XOR 1449 4614 8906; G2 XOR 1448 4613 8902;
  G2 XOR 1447 4612 8898; G2 XOR 1446 4611 8894; G2 XOR 1445 4610 8890; G2 XOR 1444 4609 8886;
  G2 XOR 1443 4608 8882; G2 XOR 1442 4607 8878; G2 XOR 1441 4606 8874; G2 XOR 1440 4605 8870;
  G2 XOR 1439 4604 8866; G2 XOR 1438 4603 8862; G2 XOR 1437 4602 8858; G2 XOR 1436 4601 8854;
  G2 XOR 1435 4600 8850; G2 XOR 1434 4599 8846; G2 XOR 1433 4598 8842; G2 XOR 1432 4597 8838;
  G2 XOR 1431 4596 8834; G2 XOR 1430 4595 8830; G2 XOR 1429 4594 8826; G2 XOR 1428 4593 8822;
  G2 XOR 1427 4592 8818; G2 XOR 9083 4281 4621; G2 XOR 1456 4621 8934; G2 XOR 8934 4660 4936;
  G2 XOR 4621 4660 8932; G2 AND 8933 8932 8931; G2 XOR 8931 4660 4659; G2 XOR 1455 4659 8929;
  G2 XOR 8930 4659 4935; G2 XOR 4620 4659 8928; G2 AND 8929 8928 8927; G2 XOR 8927 4659 4658;
  G2 XOR 1454 4658 8925; G2 XOR 8926 4658 4934; G2 XOR 4619 4658 8924; G2 AND 8925 8924 8923;
  G2 XOR 8923 4658 4657; G2 XOR 1453 4657 8921; G2 XOR 8922 4657 4933; G2 XOR 4618 4657 8920;
  G2 AND 8921 8920 8919; G2 XOR 8919 4657 4656; G2 XOR 1452 4656 8917; G2 XOR 8918 4656 4932;
  G2 XOR 4617 4656 8916; G2 AND 8917 8916 8915; G2 XOR 8915 4656 4655; G2 XOR 1451 4655 8913;
  G2 XOR 8914 4655 4931; G2 XOR 4616 4655 8912; G2 AND 8913 8912 8911; G2 XOR 8911 4655 4654;
  G2 XOR 8910 4654 4930; G2 XOR 1450 4654 8909; G2 XOR 4615 4654 8908; G2 AND 8909 8908 8907;
  G2 XOR 8907 4654 4653; G2 XOR 8906 4653 4929; G2 XOR 1449 4653 8905; G2 XOR 4614 4653 8904;
  G2 AND 8905 8904 8903; G2 XOR 8903 4653 4652; G2 XOR 8902 4652 4928; G2 XOR 1448 4652 8901;
  G2 XOR 4613 4652 8900; G2 AND 8901 8900 8899; G2 XOR 8899 4652 4651; G2 XOR 8898 4651 4927;
  G2 XOR 1447 4651 8897; G2 XOR 4612 4651 8896; G2 AND 8897 8896 8895; G2 XOR 8895 4651 4650;
  G2 XOR 8894 4650 4926; G2 XOR 1446 4650 8893; G2 XOR 4611 4650 8892; G2 AND 8893 8892 8891;
  G2 XOR 8891 4650 4649; G2 XOR 8890 4649 4925; G2 XOR 1445 4649 8889; G2 XOR 4610 4649 8888;
  G2 AND 8889 8888 8887; G2 XOR 8887 4649 4648; G2 XOR 8886 4648 4924; G2 XOR 1444 4648 8885;
  G2 XOR 4609 4648 8884; G2 AND 8885 8884 8883; G2 XOR 8883 4648 4647; G2 XOR 8882 4647 4923;
  G2 XOR 1443 4647 8881; G2 XOR 4608 4647 8880; G2 AND 8881 8880 8879; G2 XOR 8879 4647 4646;
  G2 XOR 8878 4646 4922; G2 XOR 1442 4646 8877; G2 XOR 4607 4646 8876; G2 AND 8877 8876 8875;
  G2 XOR 8875 4646 4645; G2 XOR 8874 4645 4921; G2 XOR 1441 4645 8873; G2 XOR 4606 4645 8872;
  G2 AND 8873 8872 8871; G2 XOR 8871 4645 4644; G2 XOR 8870 4644 4920; G2 XOR 1440 4644 8869;
  G2 XOR 4605 4644 8868; G2 AND 8869 8868 8867; G2 XOR 8867 4644 4643; G2 XOR 8866 4643 4919;
  G2 XOR 1439 4643 8865; G2 XOR 4604 4643 8864; G2 AND 8865 8864 8863; G2 XOR 8863 4643 4642;
  G2 XOR 8862 4642 4918; G2 XOR 1438 4642 8861; G2 XOR 4603 4642 8860; G2 AND 8861 8860 8859;
  G2 XOR 8859 4642 4641; G2 XOR 8858 4641 4917; G2 XOR 1437 4641 8857; G2 XOR 4602 4641 8856;
  G2 AND 8857 8856 8855; G2 XOR 8855 4641 4640; G2 XOR 8854 4640 4916; G2 XOR 1436 4640 8853;
  G2 XOR 4601 4640 8852; G2 AND 8853 8852 8851; G2 XOR 8851 4640 4639; G2 XOR 8850 4639 4915;
  G2 XOR 1435 4639 8849; G2 XOR 4600 4639 8848; G2 AND 8849 8848 8847; G2 XOR 8847 4639 4638;
  G2 XOR 8846 4638 4914; G2 XOR 1434 4638 8845; G2 XOR 4599 4638 8844; G2 AND 8845 8844 8843;
  G2 XOR 8843 4638 4637; G2 XOR 8842 4637 4913; G2 XOR 1433 4637 8841; G2 XOR 4598 4637 8840;
  G2 AND 8841 8840 8839; G2 XOR 8839 4637 4636; G2 XOR 8838 4636 4912; G2 XOR 1432 4636 8837;
  G2 XOR 4597 4636 8836; G2 AND 8837 8836 8835; G2 XOR 8835 4636 4635; G2 XOR 8834 4635 4911;
  G2 XOR 1431 4635 8833; G2 XOR 4596 4635 8832; G2 AND 8833 8832 8831; G2 XOR 8831 4635 4634;
  G2 XOR 8830 4634 4910; G2 XOR 1430 4634 8829; G2 XOR 4595 4634 8828; G2 AND 8829 8828 8827;
  G2 XOR 8827 4634 4633; G2 XOR 8826 4633 4909; G2 XOR 1429 4633 8825; G2 XOR 4594 4633 8824;
  G2 AND 8825 8824 8823; G2 XOR 8823 4633 4632; G2 XOR 8822 4632 4908; G2 XOR 1428 4632 8821;
  G2 XOR 4593 4632 8820; G2 AND 8821 8820 8819; G2 XOR 8819 4632 4631; G2 XOR 8818 4631 4907;
  G2 XOR 1495 4936 8789; G2 XOR 8789 4698 4974; G2 XOR 1494 4935 8785; G2 XOR 4936 4698 8787;
  G2 AND 8788 8787 8786; G2 XOR 8786 4698 4697; G2 XOR 8785 4697 4973; G2 XOR 4935 4697 8783;
  G2 XOR 1493 4934 8781; G2 XOR 1494 4697 8784; G2 AND 8784 8783 8782; G2 XOR 8782 4697 4696;
  G2 XOR 8781 4696 4972; G2 XOR 4934 4696 8779; G2 XOR 1492 4933 8777; G2 XOR 1493 4696 8780;
  G2 AND 8780 8779 8778; G2 XOR 8778 4696 4695; G2 XOR 8777 4695 4971; G2 XOR 4933 4695 8775;
  G2 XOR 1491 4932 8773; G2 XOR 1492 4695 8776; G2 AND 8776 8775 8774; G2 XOR 8774 4695 4694;
  G2 XOR 8773 4694 4970; G2 XOR 4932 4694 8771; G2 XOR 1490 4931 8769; G2 XOR 1491 4694 8772;
  G2 AND 8772 8771 8770; G2 XOR 8770 4694 4693; G2 XOR 8769 4693 4969; G2 XOR 4931 4693 8767;
  G2 XOR 1489 4930 8765; G2 XOR 1490 4693 8768; G2 AND 8768 8767 8766; G2 XOR 8766 4693 4692;
  G2 XOR 8765 4692 4968; G2 XOR 4930 4692 8763; G2 XOR 1488 4929 8761; G2 XOR 1489 4692 8764;
  G2 AND 8764 8763 8762; G2 XOR 8762 4692 4691; G2 XOR 8761 4691 4967; G2 XOR 4929 4691 8759;
  G2 XOR 1487 4928 8757; G2 XOR 1488 4691 8760; G2 AND 8760 8759 8758; G2 XOR 8758 4691 4690;
  G2 XOR 8757 4690 4966; G2 XOR 4928 4690 8755; G2 XOR 1486 4927 8753; G2 XOR 1487 4690 8756;
  G2 AND 8756 8755 8754; G2 XOR 8754 4690 4689; G2 XOR 8753 4689 4965; G2 XOR 4927 4689 8751;
  G2 XOR 1485 4926 8749; G2 XOR 1486 4689 8752; G2 AND 8752 8751 8750; G2 XOR 8750 4689 4688;
  G2 XOR 8749 4688 4964; G2 XOR 4926 4688 8747; G2 XOR 1484 4925 8745; G2 XOR 1485 4688 8748;
  G2 AND 8748 8747 8746; G2 XOR 8746 4688 4687; G2 XOR 8745 4687 4963; G2 XOR 4925 4687 8743;
  G2 XOR 1483 4924 8741; G2 XOR 1484 4687 8744; G2 AND 8744 8743 8742; G2 XOR 8742 4687 4686;
  G2 XOR 8741 4686 4962; G2 XOR 4924 4686 8739; G2 XOR 1483 4686 8740; G2 AND 8740 8739 8738;
  G2 XOR 8738 4686 4685; G2 XOR 4923 4685 8735; G2 XOR 1482 4923 8737; G2 XOR 8737 4685 4961;
  G2 XOR 1481 4922 8733; G2 XOR 1482 4685 8736; G2 AND 8736 8735 8734; G2 XOR 8734 4685 4684;
  G2 XOR 8733 4684 4960; G2 XOR 4922 4684 8731; G2 XOR 1480 4921 8729; G2 XOR 1481 4684 8732;
  G2 AND 8732 8731 8730; G2 XOR 8730 4684 4683; G2 XOR 8729 4683 4959; G2 XOR 4921 4683 8727;
  G2 XOR 1479 4920 8725; G2 XOR 1480 4683 8728; G2 AND 8728 8727 8726; G2 XOR 8726 4683 4682;
  G2 XOR 8725 4682 4958; G2 XOR 4920 4682 8723; G2 XOR 1478 4919 8721; G2 XOR 1479 4682 8724;
  G2 AND 8724 8723 8722; G2 XOR 8722 4682 4681; G2 XOR 8721 4681 4957; G2 XOR 4919 4681 8719;
  G2 XOR 1477 4918 8717; G2 XOR 1478 4681 8720; G2 AND 8720 8719 8718; G2 XOR 8718 4681 4680;
  G2 XOR 8717 4680 4956; G2 XOR 4918 4680 8715; G2 XOR 1476 4917 8713; G2 XOR 1477 4680 8716;
  G2 AND 8716 8715 8714; G2 XOR 8714 4680 4679; G2 XOR 8713 4679 4955; G2 XOR 4917 4679 8711;
  G2 XOR 1475 4916 8709; G2 XOR 1476 4679 8712; G2 AND 8712 8711 8710; G2 XOR 8710 4679 4678;
  G2 XOR 8709 4678 4954; G2 XOR 4916 4678 8707; G2 XOR 1474 4915 8705; G2 XOR 1475 4678 8708;
  G2 AND 8708 8707 8706; G2 XOR 8706 4678 4677; G2 XOR 8705 4677 4953; G2 XOR 4915 4677 8703;
  G2 XOR 1473 4914 8701; G2 XOR 1474 4677 8704; G2 AND 8704 8703 8702; G2 XOR 8702 4677 4676;
  G2 XOR 8701 4676 4952; G2 XOR 4914 4676 8699; G2 XOR 1472 4913 8697; G2 XOR 1473 4676 8700;
  G2 AND 8700 8699 8698; G2 XOR 8698 4676 4675; G2 XOR 8697 4675 4951; G2 XOR 4913 4675 8695;
  G2 XOR 1471 4912 8693; G2 XOR 1472 4675 8696; G2 AND 8696 8695 8694; G2 XOR 8694 4675 4674;
  G2 XOR 8693 4674 4950; G2 XOR 4912 4674 8691; G2 XOR 1470 4911 8689; G2 XOR 1471 4674 8692;
  G2 AND 8692 8691 8690; G2 XOR 8690 4674 4673; G2 XOR 8689 4673 4949; G2 XOR 4911 4673 8687;
  G2 XOR 1469 4910 8685; G2 XOR 1470 4673 8688; G2 AND 8688 8687 8686; G2 XOR 8686 4673 4672;
  G2 XOR 8685 4672 4948; G2 XOR 4910 4672 8683; G2 XOR 1468 4909 8681; G2 XOR 1469 4672 8684;
  G2 AND 8684 8683 8682; G2 XOR 8682 4672 4671; G2 XOR 8681 4671 4947; G2 XOR 1506 4947 8540;
  G2 XOR 4909 4671 8679; G2 XOR 1467 4908 8677; G2 XOR 1468 4671 8680; G2 AND 8680 8679 8678;
  G2 XOR 8678 4671 4670; G2 XOR 8677 4670 4946; G2 XOR 4908 4670 8675; G2 XOR 1466 4907 8673;
  G2 XOR 1467 4670 8676; G2 AND 8676 8675 8674; G2 XOR 8674 4670 4669; G2 XOR 8673 4669 4945;
  G2 XOR 1533 4974 8648; G2 XOR 8648 4735 5011; G2 XOR 4974 4735 8646; G2 AND 8647 8646 8645;
  G2 XOR 8645 4735 4734; G2 XOR 1532 4734 8643; G2 XOR 1532 4973 8644; G2 XOR 8644 4734 5010;
  G2 XOR 4973 4734 8642; G2 AND 8643 8642 8641; G2 XOR 8641 4734 4733; G2 XOR 4972 4733 8638;
  G2 XOR 1530 4971 8636; G2 XOR 1531 4972 8640; G2 XOR 8640 4733 5009; G2 XOR 1531 4733 8639;
  G2 AND 8639 8638 8637; G2 XOR 8637 4733 4732; G2 XOR 4971 4732 8634; G2 XOR 1529 4970 8632;
  G2 XOR 8636 4732 5008; G2 XOR 1530 4732 8635; G2 AND 8635 8634 8633; G2 XOR 8633 4732 4731;
  G2 XOR 4970 4731 8630; G2 XOR 1528 4969 8628; G2 XOR 8632 4731 5007; G2 XOR 1529 4731 8631;
  G2 AND 8631 8630 8629; G2 XOR 8629 4731 4730; G2 XOR 4969 4730 8626; G2 XOR 1527 4968 8624;
  G2 XOR 8628 4730 5006; G2 XOR 1528 4730 8627; G2 AND 8627 8626 8625; G2 XOR 8625 4730 4729;
  G2 XOR 4968 4729 8622; G2 XOR 1526 4967 8620; G2 XOR 8624 4729 5005; G2 XOR 1527 4729 8623;
  G2 AND 8623 8622 8621; G2 XOR 8621 4729 4728; G2 XOR 4967 4728 8618; G2 XOR 1525 4966 8616;
  G2 XOR 8620 4728 5004; G2 XOR 1526 4728 8619; G2 AND 8619 8618 8617; G2 XOR 8617 4728 4727;
  G2 XOR 4966 4727 8614; G2 XOR 1524 4965 8612; G2 XOR 8616 4727 5003; G2 XOR 1525 4727 8615;
  G2 AND 8615 8614 8613; G2 XOR 8613 4727 4726; G2 XOR 4965 4726 8610; G2 XOR 1523 4964 8608;
  G2 XOR 8612 4726 5002; G2 XOR 1524 4726 8611; G2 AND 8611 8610 8609; G2 XOR 8609 4726 4725;
  G2 XOR 4964 4725 8606; G2 XOR 1522 4963 8604; G2 XOR 8608 4725 5001; G2 XOR 1523 4725 8607;
  G2 AND 8607 8606 8605; G2 XOR 8605 4725 4724; G2 XOR 8604 4724 5000; G2 XOR 1559 5000 8467;
  G2 XOR 1521 4962 8600; G2 XOR 4963 4724 8602; G2 XOR 1522 4724 8603; G2 AND 8603 8602 8601;
  G2 XOR 8601 4724 4723; G2 XOR 8600 4723 4999; G2 XOR 1520 4961 8596; G2 XOR 4962 4723 8598;
  G2 XOR 1521 4723 8599; G2 AND 8599 8598 8597; G2 XOR 8597 4723 4722; G2 XOR 8596 4722 4998;
  G2 XOR 1519 4960 8592; G2 XOR 4961 4722 8594; G2 XOR 1520 4722 8595; G2 AND 8595 8594 8593;
  G2 XOR 8593 4722 4721; G2 XOR 8592 4721 4997; G2 XOR 1518 4959 8588; G2 XOR 4960 4721 8590;
  G2 XOR 1519 4721 8591; G2 AND 8591 8590 8589; G2 XOR 8589 4721 4720; G2 XOR 8588 4720 4996;
  G2 XOR 1517 4958 8584; G2 XOR 4959 4720 8586; G2 XOR 1518 4720 8587; G2 AND 8587 8586 8585;
  G2 XOR 8585 4720 4719; G2 XOR 8584 4719 4995; G2 XOR 1516 4957 8580; G2 XOR 4958 4719 8582;
  G2 XOR 1517 4719 8583; G2 AND 8583 8582 8581; G2 XOR 8581 4719 4718; G2 XOR 8580 4718 4994;
  G2 XOR 1515 4956 8576; G2 XOR 4957 4718 8578; G2 XOR 1516 4718 8579; G2 AND 8579 8578 8577;
  G2 XOR 8577 4718 4717; G2 XOR 8576 4717 4993; G2 XOR 1514 4955 8572; G2 XOR 4956 4717 8574;
  G2 XOR 1515 4717 8575; G2 AND 8575 8574 8573; G2 XOR 8573 4717 4716; G2 XOR 8572 4716 4992;
  G2 XOR 1513 4954 8568; G2 XOR 4955 4716 8570; G2 XOR 1514 4716 8571; G2 AND 8571 8570 8569;
  G2 XOR 8569 4716 4715; G2 XOR 8568 4715 4991; G2 XOR 1512 4953 8564; G2 XOR 4954 4715 8566;
  G2 XOR 1513 4715 8567; G2 AND 8567 8566 8565; G2 XOR 8565 4715 4714; G2 XOR 8564 4714 4990;
  G2 XOR 1511 4952 8560; G2 XOR 4953 4714 8562; G2 XOR 1512 4714 8563; G2 AND 8563 8562 8561;
  G2 XOR 8561 4714 4713; G2 XOR 8560 4713 4989; G2 XOR 1510 4951 8556; G2 XOR 4952 4713 8558;
  G2 XOR 1511 4713 8559; G2 AND 8559 8558 8557; G2 XOR 8557 4713 4712; G2 XOR 8556 4712 4988;
  G2 XOR 1509 4950 8552; G2 XOR 4951 4712 8554; G2 XOR 1510 4712 8555; G2 AND 8555 8554 8553;
  G2 XOR 8553 4712 4711; G2 XOR 8552 4711 4987; G2 XOR 1508 4949 8548; G2 XOR 4950 4711 8550;
  G2 XOR 1509 4711 8551; G2 AND 8551 8550 8549; G2 XOR 8549 4711 4710; G2 XOR 8548 4710 4986;
  G2 XOR 1545 4986 8411; G2 XOR 1507 4948 8544; G2 XOR 4949 4710 8546; G2 XOR 1508 4710 8547;
  G2 AND 8547 8546 8545; G2 XOR 8545 4710 4709; G2 XOR 8544 4709 4985; G2 XOR 4948 4709 8542;
  G2 XOR 1507 4709 8543; G2 AND 8543 8542 8541; G2 XOR 8541 4709 4708; G2 XOR 8540 4708 4984;
  G2 XOR 1506 4708 8539; G2 XOR 4947 4708 8538; G2 AND 8539 8538 8537; G2 XOR 8537 4708 4707;
  G2 XOR 1505 4946 8536; G2 XOR 8536 4707 4983; G2 XOR 4946 4707 8534; G2 XOR 1505 4707 8535;
  G2 AND 8535 8534 8533; G2 XOR 8533 4707 4706; G2 XOR 1504 4945 8532; G2 XOR 8532 4706 4982;
  G2 XOR 1570 5011 8511; G2 XOR 8511 4771 5047; G2 XOR 5011 4771 8509; G2 AND 8510 8509 8508;
  G2 XOR 8508 4771 4770; G2 XOR 1569 4770 8506; G2 XOR 1569 5010 8507; G2 XOR 8507 4770 5046;
  G2 XOR 5010 4770 8505; G2 AND 8506 8505 8504; G2 XOR 8504 4770 4769; G2 XOR 1568 4769 8502;
  G2 XOR 1568 5009 8503; G2 XOR 8503 4769 5045; G2 XOR 5009 4769 8501; G2 AND 8502 8501 8500;
  G2 XOR 8500 4769 4768; G2 XOR 1567 4768 8498; G2 XOR 1567 5008 8499; G2 XOR 8499 4768 5044;
  G2 XOR 5008 4768 8497; G2 AND 8498 8497 8496; G2 XOR 8496 4768 4767; G2 XOR 1566 4767 8494;
  G2 XOR 1566 5007 8495; G2 XOR 8495 4767 5043; G2 XOR 5007 4767 8493; G2 AND 8494 8493 8492;
  G2 XOR 8492 4767 4766; G2 XOR 1565 4766 8490; G2 XOR 1565 5006 8491; G2 XOR 8491 4766 5042;
  G2 XOR 5006 4766 8489; G2 AND 8490 8489 8488; G2 XOR 8488 4766 4765; G2 XOR 1564 5005 8487;
  G2 XOR 8487 4765 5041; G2 XOR 5005 4765 8485; G2 XOR 1564 4765 8486; G2 AND 8486 8485 8484;
  G2 XOR 8484 4765 4764; G2 XOR 1563 4764 8482; G2 XOR 1563 5004 8483; G2 XOR 8483 4764 5040;
  G2 XOR 5004 4764 8481; G2 AND 8482 8481 8480; G2 XOR 8480 4764 4763; G2 XOR 1562 4763 8478;
  G2 XOR 1562 5003 8479; G2 XOR 8479 4763 5039; G2 XOR 1598 5039 8346; G2 XOR 5003 4763 8477;
  G2 AND 8478 8477 8476; G2 XOR 8476 4763 4762; G2 XOR 1561 4762 8474; G2 XOR 1561 5002 8475;
  G2 XOR 8475 4762 5038; G2 XOR 1597 5038 8342; G2 XOR 5002 4762 8473; G2 AND 8474 8473 8472;
  G2 XOR 8472 4762 4761; G2 XOR 1560 4761 8470; G2 XOR 1560 5001 8471; G2 XOR 8471 4761 5037;
  G2 XOR 5001 4761 8469; G2 AND 8470 8469 8468; G2 XOR 8468 4761 4760; G2 XOR 1559 4760 8466;
  G2 XOR 5000 4760 8465; G2 XOR 8467 4760 5036; G2 AND 8466 8465 8464; G2 XOR 8464 4760 4759;
  G2 XOR 1558 4759 8462; G2 XOR 4999 4759 8461; G2 XOR 1558 4999 8463; G2 XOR 8463 4759 5035;
  G2 AND 8462 8461 8460; G2 XOR 8460 4759 4758; G2 XOR 1557 4758 8458; G2 XOR 1557 4998 8459;
  G2 XOR 8459 4758 5034; G2 XOR 1593 5034 8326; G2 XOR 4998 4758 8457; G2 AND 8458 8457 8456;
  G2 XOR 8456 4758 4757; G2 XOR 1556 4757 8454; G2 XOR 1556 4997 8455; G2 XOR 8455 4757 5033;
  G2 XOR 4997 4757 8453; G2 AND 8454 8453 8452; G2 XOR 8452 4757 4756; G2 XOR 1555 4756 8450;
  G2 XOR 1555 4996 8451; G2 XOR 8451 4756 5032; G2 XOR 4996 4756 8449; G2 AND 8450 8449 8448;
  G2 XOR 8448 4756 4755; G2 XOR 1554 4755 8446; G2 XOR 1554 4995 8447; G2 XOR 8447 4755 5031;
  G2 XOR 4995 4755 8445; G2 AND 8446 8445 8444; G2 XOR 8444 4755 4754; G2 XOR 4994 4754 8441;
  G2 XOR 1552 4993 8439; G2 XOR 1553 4994 8443; G2 XOR 8443 4754 5030; G2 XOR 1589 5030 8310;
  G2 XOR 1553 4754 8442; G2 AND 8442 8441 8440; G2 XOR 8440 4754 4753; G2 XOR 1552 4753 8438;
  G2 XOR 8439 4753 5029; G2 XOR 1551 4992 8435; G2 XOR 4993 4753 8437; G2 AND 8438 8437 8436;
  G2 XOR 8436 4753 4752; G2 XOR 8435 4752 5028; G2 XOR 1587 5028 8302; G2 XOR 1551 4752 8434;
  G2 XOR 1550 4991 8431; G2 XOR 4992 4752 8433; G2 AND 8434 8433 8432; G2 XOR 8432 4752 4751;
  G2 XOR 1550 4751 8430; G2 XOR 8431 4751 5027; G2 XOR 1586 5027 8298; G2 XOR 4991 4751 8429;
  G2 AND 8430 8429 8428; G2 XOR 8428 4751 4750; G2 XOR 1549 4990 8427; G2 XOR 8427 4750 5026;
  G2 XOR 1585 5026 8294; G2 XOR 1549 4750 8426; G2 XOR 4990 4750 8425; G2 AND 8426 8425 8424;
  G2 XOR 8424 4750 4749; G2 XOR 1548 4989 8423; G2 XOR 8423 4749 5025; G2 XOR 1548 4749 8422;
  G2 XOR 4989 4749 8421; G2 AND 8422 8421 8420; G2 XOR 8420 4749 4748; G2 XOR 1547 4988 8419;
  G2 XOR 8419 4748 5024; G2 XOR 1547 4748 8418; G2 XOR 4988 4748 8417; G2 AND 8418 8417 8416;
  G2 XOR 8416 4748 4747; G2 XOR 1546 4987 8415; G2 XOR 8415 4747 5023; G2 XOR 4987 4747 8413;
  G2 XOR 1546 4747 8414; G2 AND 8414 8413 8412; G2 XOR 8412 4747 4746; G2 XOR 1544 4985 8407;
  G2 XOR 8411 4746 5022; G2 XOR 1545 4746 8410; G2 XOR 1543 4984 8403; G2 XOR 4986 4746 8409;
  G2 AND 8410 8409 8408; G2 XOR 8408 4746 4745; G2 XOR 8407 4745 5021; G2 XOR 1544 4745 8406;
  G2 XOR 1542 4983 8399; G2 XOR 4985 4745 8405; G2 AND 8406 8405 8404; G2 XOR 8404 4745 4744;
  G2 XOR 8403 4744 5020; G2 XOR 1543 4744 8402; G2 XOR 1541 4982 8395; G2 XOR 4984 4744 8401;
  G2 AND 8402 8401 8400; G2 XOR 8400 4744 4743; G2 XOR 8399 4743 5019; G2 XOR 1542 4743 8398;
  G2 XOR 4983 4743 8397; G2 AND 8398 8397 8396; G2 XOR 8396 4743 4742; G2 XOR 8395 4742 5018;
  G2 XOR 1605 5046 8374; G2 XOR 1606 5047 8378; G2 XOR 8378 4806 5082; G2 XOR 5082 4840 8247;
  G2 XOR 1604 5045 8370; G2 XOR 5047 4806 8376; G2 AND 8377 8376 8375; G2 XOR 8375 4806 4805;
  G2 XOR 8374 4805 5081; G2 XOR 1605 4805 8373; G2 XOR 1603 5044 8366; G2 XOR 5046 4805 8372;
  G2 AND 8373 8372 8371; G2 XOR 8371 4805 4804; G2 XOR 8370 4804 5080; G2 XOR 1639 5080 8241;
  G2 XOR 1604 4804 8369; G2 XOR 5045 4804 8368; G2 AND 8369 8368 8367; G2 XOR 8367 4804 4803;
  G2 XOR 5044 4803 8364; G2 XOR 1603 4803 8365; G2 XOR 8366 4803 5079; G2 AND 8365 8364 8363;
  G2 XOR 8363 4803 4802; G2 XOR 5043 4802 8360; G2 XOR 1602 5043 8362; G2 XOR 8362 4802 5078;
  G2 XOR 1601 5042 8358; G2 XOR 1602 4802 8361; G2 AND 8361 8360 8359; G2 XOR 8359 4802 4801;
  G2 XOR 5042 4801 8356; G2 XOR 1601 4801 8357; G2 XOR 8358 4801 5077; G2 AND 8357 8356 8355;
  G2 XOR 8355 4801 4800; G2 XOR 1600 5041 8354; G2 XOR 8354 4800 5076; G2 XOR 5041 4800 8352;
  G2 XOR 1600 4800 8353; G2 AND 8353 8352 8351; G2 XOR 8351 4800 4799; G2 XOR 1599 4799 8349;
  G2 XOR 1599 5040 8350; G2 XOR 8350 4799 5075; G2 XOR 1634 5075 8221; G2 XOR 5040 4799 8348;
  G2 AND 8349 8348 8347; G2 XOR 8347 4799 4798; G2 XOR 1598 4798 8345; G2 XOR 8346 4798 5074;
  G2 XOR 5039 4798 8344; G2 AND 8345 8344 8343; G2 XOR 8343 4798 4797; G2 XOR 8342 4797 5073;
  G2 XOR 1632 5073 8213; G2 XOR 5038 4797 8340; G2 XOR 1597 4797 8341; G2 AND 8341 8340 8339;
  G2 XOR 8339 4797 4796; G2 XOR 5037 4796 8336; G2 XOR 1596 5037 8338; G2 XOR 8338 4796 5072;
  G2 XOR 1631 5072 8209; G2 XOR 1596 4796 8337; G2 AND 8337 8336 8335; G2 XOR 8335 4796 4795;
  G2 XOR 1595 4795 8333; G2 XOR 1595 5036 8334; G2 XOR 8334 4795 5071; G2 XOR 5036 4795 8332;
  G2 AND 8333 8332 8331; G2 XOR 8331 4795 4794; G2 XOR 5035 4794 8328; G2 XOR 1594 4794 8329;
  G2 XOR 1594 5035 8330; G2 XOR 8330 4794 5070; G2 XOR 1629 5070 8201; G2 AND 8329 8328 8327;
  G2 XOR 8327 4794 4793; G2 XOR 1593 4793 8325; G2 XOR 8326 4793 5069; G2 XOR 5034 4793 8324;
  G2 AND 8325 8324 8323; G2 XOR 8323 4793 4792; G2 XOR 5033 4792 8320; G2 XOR 1592 4792 8321;
  G2 XOR 1592 5033 8322; G2 XOR 8322 4792 5068; G2 AND 8321 8320 8319; G2 XOR 8319 4792 4791;
  G2 XOR 1591 5032 8318; G2 XOR 1590 5031 8314; G2 XOR 8318 4791 5067; G2 XOR 1626 5067 8189;
  G2 XOR 1591 4791 8317; G2 XOR 5032 4791 8316; G2 AND 8317 8316 8315; G2 XOR 8315 4791 4790;
  G2 XOR 8314 4790 5066; G2 XOR 1625 5066 8185; G2 XOR 1590 4790 8313; G2 XOR 5031 4790 8312;
  G2 AND 8313 8312 8311; G2 XOR 8311 4790 4789; G2 XOR 1589 4789 8309; G2 XOR 8310 4789 5065;
  G2 XOR 1588 5029 8306; G2 XOR 5030 4789 8308; G2 AND 8309 8308 8307; G2 XOR 8307 4789 4788;
  G2 XOR 8306 4788 5064; G2 XOR 1588 4788 8305; G2 XOR 5029 4788 8304; G2 AND 8305 8304 8303;
  G2 XOR 8303 4788 4787; G2 XOR 8302 4787 5063; G2 XOR 1622 5063 8173; G2 XOR 1587 4787 8301;
  G2 XOR 5028 4787 8300; G2 AND 8301 8300 8299; G2 XOR 8299 4787 4786; G2 XOR 8298 4786 5062;
  G2 XOR 1586 4786 8297; G2 XOR 5027 4786 8296; G2 AND 8297 8296 8295; G2 XOR 8295 4786 4785;
  G2 XOR 1585 4785 8293; G2 XOR 8294 4785 5061; G2 XOR 1620 5061 8165; G2 XOR 1584 5025 8290;
  G2 XOR 5026 4785 8292; G2 AND 8293 8292 8291; G2 XOR 8291 4785 4784; G2 XOR 8290 4784 5060;
  G2 XOR 1619 5060 8161; G2 XOR 5025 4784 8288; G2 XOR 1584 4784 8289; G2 AND 8289 8288 8287;
  G2 XOR 8287 4784 4783; G2 XOR 5024 4783 8284; G2 XOR 1583 5024 8286; G2 XOR 8286 4783 5059;
  G2 XOR 1583 4783 8285; G2 AND 8285 8284 8283; G2 XOR 8283 4783 4782; G2 XOR 1582 4782 8281;
  G2 XOR 1582 5023 8282; G2 XOR 8282 4782 5058; G2 XOR 5023 4782 8280; G2 AND 8281 8280 8279;
  G2 XOR 8279 4782 4781; G2 XOR 1581 4781 8277; G2 XOR 1581 5022 8278; G2 XOR 8278 4781 5057;
  G2 XOR 1580 5021 8274; G2 XOR 5022 4781 8276; G2 AND 8277 8276 8275; G2 XOR 8275 4781 4780;
  G2 XOR 8274 4780 5056; G2 XOR 1580 4780 8273; G2 XOR 5021 4780 8272; G2 AND 8273 8272 8271;
  G2 XOR 8271 4780 4779; G2 XOR 1579 5020 8270; G2 XOR 8270 4779 5055; G2 XOR 5020 4779 8268;
  G2 XOR 1579 4779 8269; G2 AND 8269 8268 8267; G2 XOR 8267 4779 4778; G2 XOR 1578 4778 8265;
  G2 XOR 1578 5019 8266; G2 XOR 8266 4778 5054; G2 XOR 1613 5054 8137; G2 XOR 5019 4778 8264;
  G2 AND 8265 8264 8263; G2 XOR 8263 4778 4777; G2 XOR 1577 5018 8262; G2 XOR 8262 4777 5053;
  G2 AND 8248 8247 8246; G2 XOR 8246 4840 4839; G2 XOR 1641 5082 8249; G2 XOR 8249 4840 5116;
  G2 XOR 1675 5116 8124; G2 XOR 1640 5081 8245; G2 XOR 8245 4839 5115; G2 XOR 1640 4839 8244;
  G2 XOR 1638 5079 8237; G2 XOR 5081 4839 8243; G2 AND 8244 8243 8242; G2 XOR 8242 4839 4838;
  G2 XOR 5080 4838 8239; G2 XOR 1639 4838 8240; G2 XOR 8241 4838 5114; G2 AND 8240 8239 8238;
  G2 XOR 8238 4838 4837; G2 XOR 1638 4837 8236; G2 XOR 8237 4837 5113; G2 XOR 5079 4837 8235;
  G2 AND 8236 8235 8234; G2 XOR 8234 4837 4836; G2 XOR 5078 4836 8231; G2 XOR 1637 4836 8232;
  G2 AND 8232 8231 8230; G2 XOR 1637 5078 8233; G2 XOR 8233 4836 5112; G2 XOR 8230 4836 4835;
  G2 XOR 1636 5077 8229; G2 XOR 8229 4835 5111; G2 XOR 5077 4835 8227; G2 XOR 1636 4835 8228;
  G2 XOR 1635 5076 8225; G2 AND 8228 8227 8226; G2 XOR 8226 4835 4834; G2 XOR 1635 4834 8224;
  G2 XOR 8225 4834 5110; G2 XOR 5076 4834 8223; G2 AND 8224 8223 8222; G2 XOR 8222 4834 4833;
  G2 XOR 8221 4833 5109; G2 XOR 5075 4833 8219; G2 XOR 1633 5074 8217; G2 XOR 1634 4833 8220;
  G2 AND 8220 8219 8218; G2 XOR 8218 4833 4832; G2 XOR 8217 4832 5108; G2 XOR 1667 5108 8092;
  G2 XOR 1633 4832 8216; G2 XOR 5074 4832 8215; G2 AND 8216 8215 8214; G2 XOR 8214 4832 4831;
  G2 XOR 5073 4831 8211; G2 XOR 8213 4831 5107; G2 XOR 1632 4831 8212; G2 AND 8212 8211 8210;
  G2 XOR 8210 4831 4830; G2 XOR 1631 4830 8208; G2 XOR 8209 4830 5106; G2 XOR 1665 5106 8084;
  G2 XOR 5072 4830 8207; G2 AND 8208 8207 8206; G2 XOR 8206 4830 4829; G2 XOR 5071 4829 8203;
  G2 XOR 1630 4829 8204; G2 AND 8204 8203 8202; G2 XOR 8202 4829 4828; G2 XOR 8201 4828 5104;
  G2 XOR 5070 4828 8199; G2 XOR 1630 5071 8205; G2 XOR 8205 4829 5105; G2 XOR 1664 5105 8080;
  G2 XOR 1627 5068 8193; G2 XOR 1629 4828 8200; G2 AND 8200 8199 8198; G2 XOR 8198 4828 4827;
  G2 XOR 1628 4827 8196; G2 XOR 5069 4827 8195; G2 AND 8196 8195 8194; G2 XOR 8194 4827 4826;
  G2 XOR 8193 4826 5102; G2 XOR 1661 5102 8068; G2 XOR 1628 5069 8197; G2 XOR 8197 4827 5103;
  G2 XOR 1662 5103 8072; G2 XOR 5068 4826 8191; G2 XOR 1627 4826 8192; G2 AND 8192 8191 8190;
  G2 XOR 8190 4826 4825; G2 XOR 1626 4825 8188; G2 XOR 8189 4825 5101; G2 XOR 1660 5101 8064;
  G2 XOR 5067 4825 8187; G2 AND 8188 8187 8186; G2 XOR 8186 4825 4824; G2 XOR 1625 4824 8184;
  G2 XOR 8185 4824 5100; G2 XOR 1659 5100 8060; G2 XOR 1624 5065 8181; G2 XOR 5066 4824 8183;
  G2 AND 8184 8183 8182; G2 XOR 8182 4824 4823; G2 XOR 5065 4823 8179; G2 XOR 1624 4823 8180;
  G2 AND 8180 8179 8178; G2 XOR 8178 4823 4822; G2 XOR 8181 4823 5099; G2 XOR 1623 5064 8177;
  G2 XOR 8177 4822 5098; G2 XOR 1657 5098 8052; G2 XOR 5064 4822 8175; G2 XOR 1623 4822 8176;
  G2 AND 8176 8175 8174; G2 XOR 8174 4822 4821; G2 XOR 1622 4821 8172; G2 XOR 8173 4821 5097;
  G2 XOR 1656 5097 8048; G2 XOR 1621 5062 8169; G2 XOR 5063 4821 8171; G2 AND 8172 8171 8170;
  G2 XOR 8170 4821 4820; G2 XOR 5062 4820 8167; G2 XOR 8169 4820 5096; G2 XOR 1655 5096 8044;
  G2 XOR 1621 4820 8168; G2 AND 8168 8167 8166; G2 XOR 8166 4820 4819; G2 XOR 1620 4819 8164;
  G2 XOR 8165 4819 5095; G2 XOR 1654 5095 8040; G2 XOR 5061 4819 8163; G2 AND 8164 8163 8162;
  G2 XOR 8162 4819 4818; G2 XOR 5060 4818 8159; G2 XOR 8161 4818 5094; G2 XOR 1653 5094 8036;
  G2 XOR 1619 4818 8160; G2 AND 8160 8159 8158; G2 XOR 8158 4818 4817; G2 XOR 5059 4817 8155;
  G2 XOR 1618 4817 8156; G2 AND 8156 8155 8154; G2 XOR 1618 5059 8157; G2 XOR 8157 4817 5093;
  G2 XOR 1652 5093 8032; G2 XOR 8154 4817 4816; G2 XOR 5058 4816 8151; G2 XOR 1617 5058 8153;
  G2 XOR 8153 4816 5092; G2 XOR 1617 4816 8152; G2 AND 8152 8151 8150; G2 XOR 8150 4816 4815;
  G2 XOR 5057 4815 8147; G2 XOR 1616 4815 8148; G2 AND 8148 8147 8146; G2 XOR 8146 4815 4814;
  G2 XOR 1616 5057 8149; G2 XOR 8149 4815 5091; G2 XOR 5056 4814 8143; G2 XOR 1615 5056 8145;
  G2 XOR 8145 4814 5090; G2 XOR 1615 4814 8144; G2 AND 8144 8143 8142; G2 XOR 8142 4814 4813;
  G2 XOR 5055 4813 8139; G2 XOR 1614 4813 8140; G2 AND 8140 8139 8138; G2 XOR 1614 5055 8141;
  G2 XOR 8141 4813 5089; G2 XOR 8138 4813 4812; G2 XOR 5054 4812 8135; G2 XOR 8137 4812 5088;
  G2 XOR 1647 5088 8012; G2 XOR 1612 5053 8133; G2 XOR 1613 4812 8136; G2 AND 8136 8135 8134;
  G2 XOR 8134 4812 4811; G2 XOR 8133 4811 5087; G2 XOR 1646 5087 8008; G2 XOR 8124 4873 5149;
  G2 XOR 5149 4905 8001; G2 XOR 5116 4873 8122; G2 AND 8123 8122 8121; G2 XOR 1674 5115 8120;
  G2 XOR 8121 4873 4872; G2 XOR 8120 4872 5148; G2 XOR 1707 5148 7999; G2 XOR 1674 4872 8119;
  G2 XOR 1673 5114 8116; G2 XOR 5115 4872 8118; G2 AND 8119 8118 8117; G2 XOR 8117 4872 4871;
  G2 XOR 5114 4871 8114; G2 XOR 8116 4871 5147; G2 XOR 1672 5113 8112; G2 XOR 1673 4871 8115;
  G2 AND 8115 8114 8113; G2 XOR 8113 4871 4870; G2 XOR 8112 4870 5146; G2 XOR 5113 4870 8110;
  G2 XOR 1672 4870 8111; G2 AND 8111 8110 8109; G2 XOR 8109 4870 4869; G2 XOR 1671 5112 8108;
  G2 XOR 8108 4869 5145; G2 XOR 1704 5145 7987; G2 XOR 1670 5111 8104; G2 XOR 1671 4869 8107;
  G2 XOR 5112 4869 8106; G2 AND 8107 8106 8105; G2 XOR 8105 4869 4868; G2 XOR 8104 4868 5144;
  G2 XOR 1670 4868 8103; G2 XOR 1703 5144 7983; G2 XOR 1669 5110 8100; G2 XOR 5111 4868 8102;
  G2 AND 8103 8102 8101; G2 XOR 8101 4868 4867; G2 XOR 5110 4867 8098; G2 XOR 8100 4867 5143;
  G2 XOR 1702 5143 7979; G2 XOR 1669 4867 8099; G2 AND 8099 8098 8097; G2 XOR 8097 4867 4866;
  G2 XOR 1668 5109 8096; G2 XOR 8096 4866 5142; G2 XOR 1701 5142 7975; G2 XOR 5109 4866 8094;
  G2 XOR 1668 4866 8095; G2 AND 8095 8094 8093; G2 XOR 8093 4866 4865; G2 XOR 1667 4865 8091;
  G2 XOR 8092 4865 5141; G2 XOR 1700 5141 7971; G2 XOR 5108 4865 8090; G2 AND 8091 8090 8089;
  G2 XOR 8089 4865 4864; G2 XOR 1666 4864 8087; G2 XOR 5107 4864 8086; G2 AND 8087 8086 8085;
  G2 XOR 8085 4864 4863; G2 XOR 1665 4863 8083; G2 XOR 5106 4863 8082; G2 XOR 8084 4863 5139;
  G2 XOR 1698 5139 7963; G2 XOR 1666 5107 8088; G2 XOR 8088 4864 5140; G2 XOR 1699 5140 7967;
  G2 AND 8083 8082 8081; G2 XOR 8081 4863 4862; G2 XOR 1664 4862 8079; G2 XOR 8080 4862 5138;
  G2 XOR 1697 5138 7959; G2 XOR 5105 4862 8078; G2 AND 8079 8078 8077; G2 XOR 8077 4862 4861;
  G2 XOR 1663 4861 8075; G2 XOR 5104 4861 8074; G2 AND 8075 8074 8073; G2 XOR 8073 4861 4860;
  G2 XOR 1662 4860 8071; G2 XOR 1663 5104 8076; G2 XOR 8076 4861 5137; G2 XOR 1696 5137 7955;
  G2 XOR 8072 4860 5136; G2 XOR 1695 5136 7951; G2 XOR 5103 4860 8070; G2 AND 8071 8070 8069;
  G2 XOR 8069 4860 4859; G2 XOR 1661 4859 8067; G2 XOR 5102 4859 8066; G2 AND 8067 8066 8065;
  G2 XOR 8068 4859 5135; G2 XOR 1694 5135 7947; G2 XOR 8065 4859 4858; G2 XOR 1660 4858 8063;
  G2 XOR 8064 4858 5134; G2 XOR 1693 5134 7943; G2 XOR 5101 4858 8062; G2 AND 8063 8062 8061;
  G2 XOR 8061 4858 4857; G2 XOR 8060 4857 5133; G2 XOR 1692 5133 7939; G2 XOR 5100 4857 8058;
  G2 XOR 1659 4857 8059; G2 AND 8059 8058 8057; G2 XOR 8057 4857 4856; G2 XOR 5099 4856 8054;
  G2 XOR 1658 5099 8056; G2 XOR 8056 4856 5132; G2 XOR 1691 5132 7935; G2 XOR 1658 4856 8055;
  G2 AND 8055 8054 8053; G2 XOR 8053 4856 4855; G2 XOR 5098 4855 8050; G2 XOR 8052 4855 5131;
  G2 XOR 1690 5131 7931; G2 XOR 1657 4855 8051; G2 AND 8051 8050 8049; G2 XOR 8049 4855 4854;
  G2 XOR 5097 4854 8046; G2 XOR 8048 4854 5130; G2 XOR 1689 5130 7927; G2 XOR 1656 4854 8047;
  G2 AND 8047 8046 8045; G2 XOR 8045 4854 4853; G2 XOR 1655 4853 8043; G2 XOR 8044 4853 5129;
  G2 XOR 1688 5129 7923; G2 XOR 5096 4853 8042; G2 AND 8043 8042 8041; G2 XOR 8041 4853 4852;
  G2 XOR 8040 4852 5128; G2 XOR 1687 5128 7919; G2 XOR 1654 4852 8039; G2 XOR 5095 4852 8038;
  G2 AND 8039 8038 8037; G2 XOR 8037 4852 4851; G2 XOR 1653 4851 8035; G2 XOR 8036 4851 5127;
  G2 XOR 1686 5127 7915; G2 XOR 5094 4851 8034; G2 AND 8035 8034 8033; G2 XOR 8033 4851 4850;
  G2 XOR 1652 4850 8031; G2 XOR 5093 4850 8030; G2 AND 8031 8030 8029; G2 XOR 8029 4850 4849;
  G2 XOR 5092 4849 8026; G2 XOR 8032 4850 5126; G2 XOR 1685 5126 7911; G2 XOR 1651 5092 8028;
  G2 XOR 8028 4849 5125; G2 XOR 1684 5125 7907; G2 XOR 1651 4849 8027; G2 AND 8027 8026 8025;
  G2 XOR 8025 4849 4848; G2 XOR 1650 4848 8023; G2 XOR 5091 4848 8022; G2 XOR 1650 5091 8024;
  G2 XOR 8024 4848 5124; G2 XOR 1683 5124 7903; G2 AND 8023 8022 8021; G2 XOR 8021 4848 4847;
  G2 XOR 1649 4847 8019; G2 XOR 5090 4847 8018; G2 AND 8019 8018 8017; G2 XOR 8017 4847 4846;
  G2 XOR 1648 4846 8015; G2 XOR 5089 4846 8014; G2 XOR 1649 5090 8020; G2 XOR 8020 4847 5123;
  G2 XOR 1682 5123 7899; G2 AND 8015 8014 8013; G2 XOR 8013 4846 4845; G2 XOR 1647 4845 8011;
  G2 XOR 1648 5089 8016; G2 XOR 8016 4846 5122; G2 XOR 1681 5122 7895; G2 XOR 8012 4845 5121;
  G2 XOR 1680 5121 7891; G2 XOR 5088 4845 8010; G2 AND 8011 8010 8009; G2 XOR 8009 4845 4844;
  G2 XOR 8008 4844 5120; G2 XOR 1679 5120 7887; G2 AND 8002 8001 8000; G2 XOR 8000 4905 4904;
  G2 XOR 7999 4904 5180; G2 XOR 1707 4904 7998; G2 XOR 5148 4904 7997; G2 XOR 1739 5180 7882;
  G2 XOR 1708 5149 8003; G2 XOR 8003 4905 5181; G2 XOR 1740 5181 7886; G2 XOR 7886 5212 5424;
  G2 XOR 1771 5424 13773; G2 AND 1771 5424 5241; G2 XOR 5181 5212 7884; G2 AND 7885 7884 7883;
  G2 XOR 7883 5212 5211; G2 XOR 7882 5211 5423; G2 XOR 1770 5423 7769; G2 XOR 7769 5241 5453;
  G2 XOR 1800 5453 13774; G2 AND 1800 5453 5269; G2 XOR 1799 5269 7655; G2 XOR 1770 5241 7768;
  G2 XOR 5423 5241 7767; G2 AND 7768 7767 7766; G2 XOR 7766 5241 5240; G2 XOR 1739 5211 7881;
  G2 XOR 5180 5211 7880; G2 AND 7881 7880 7879; G2 XOR 7879 5211 5210; G2 XOR 1738 5210 7877;
  G2 XOR 1769 5240 7764; G2 AND 7998 7997 7996; G2 XOR 7996 4904 4903; G2 XOR 1706 4903 7994;
  G2 XOR 1706 5147 7995; G2 XOR 7995 4903 5179; G2 XOR 1738 5179 7878; G2 XOR 5179 5210 7876;
  G2 AND 7877 7876 7875; G2 XOR 7875 5210 5209; G2 XOR 1737 5209 7873; G2 XOR 7878 5210 5422;
  G2 XOR 1769 5422 7765; G2 XOR 7765 5240 5452; G2 XOR 1799 5452 7656; G2 XOR 7656 5269 5481;
  G2 XOR 1828 5481 13775; G2 AND 1828 5481 5296; G2 XOR 1827 5296 7546; G2 XOR 5452 5269 7654;
  G2 AND 7655 7654 7653; G2 XOR 7653 5269 5268; G2 XOR 1798 5268 7651; G2 XOR 5422 5240 7763;
  G2 AND 7764 7763 7762; G2 XOR 7762 5240 5239; G2 XOR 1768 5239 7760; G2 XOR 5147 4903 7993;
  G2 AND 7994 7993 7992; G2 XOR 7992 4903 4902; G2 XOR 1705 4902 7990; G2 XOR 5146 4902 7989;
  G2 XOR 1705 5146 7991; G2 XOR 7991 4902 5178; G2 XOR 5178 5209 7872; G2 XOR 1737 5178 7874;
  G2 XOR 7874 5209 5421; G2 XOR 1768 5421 7761; G2 AND 7873 7872 7871; G2 XOR 7871 5209 5208;
  G2 XOR 1736 5208 7869; G2 XOR 7761 5239 5451; G2 XOR 5451 5268 7650; G2 AND 7651 7650 7649;
  G2 XOR 1798 5451 7652; G2 XOR 7652 5268 5480; G2 XOR 1827 5480 7547; G2 XOR 7547 5296 5508;
  G2 XOR 1855 5508 13776; G2 AND 1855 5508 5322; G2 XOR 5480 5296 7545; G2 AND 7546 7545 7544;
  G2 XOR 7544 5296 5295; G2 XOR 1826 5295 7542; G2 XOR 1854 5322 7441; G2 XOR 7649 5268 5267;
  G2 XOR 1797 5267 7647; G2 XOR 5421 5239 7759; G2 AND 7760 7759 7758; G2 XOR 7758 5239 5238;
  G2 XOR 1767 5238 7756; G2 AND 7990 7989 7988; G2 XOR 7988 4902 4901; G2 XOR 1704 4901 7986;
  G2 XOR 5145 4901 7985; G2 AND 7986 7985 7984; G2 XOR 7984 4901 4900; G2 XOR 5144 4900 7981;
  G2 XOR 7983 4900 5176; G2 XOR 1735 5176 7866; G2 XOR 7987 4901 5177; G2 XOR 1736 5177 7870;
  G2 XOR 7870 5208 5420; G2 XOR 1767 5420 7757; G2 XOR 7757 5238 5450; G2 XOR 5420 5238 7755;
  G2 XOR 5177 5208 7868; G2 AND 7869 7868 7867; G2 XOR 7867 5208 5207; G2 XOR 7866 5207 5419;
  G2 XOR 1766 5419 7753; G2 XOR 1735 5207 7865; G2 XOR 5176 5207 7864; G2 AND 7865 7864 7863;
  G2 XOR 7863 5207 5206; G2 XOR 1734 5206 7861; G2 XOR 5450 5267 7646; G2 AND 7647 7646 7645;
  G2 XOR 1797 5450 7648; G2 XOR 7648 5267 5479; G2 XOR 1826 5479 7543; G2 XOR 7543 5295 5507;
  G2 XOR 5479 5295 7541; G2 AND 7542 7541 7540; G2 XOR 7540 5295 5294; G2 XOR 1825 5294 7538;
  G2 XOR 1854 5507 7442; G2 XOR 7442 5322 5534; G2 XOR 1881 5534 13777; G2 AND 1881 5534 5347;
  G2 XOR 5507 5322 7440; G2 AND 7441 7440 7439; G2 XOR 7439 5322 5321; G2 XOR 1853 5321 7437;
  G2 XOR 1880 5347 7340; G2 XOR 7645 5267 5266; G2 XOR 1796 5266 7643; G2 AND 7756 7755 7754;
  G2 XOR 7754 5238 5237; G2 XOR 1766 5237 7752; G2 XOR 7753 5237 5449; G2 XOR 5419 5237 7751;
  G2 AND 7752 7751 7750; G2 XOR 7750 5237 5236; G2 XOR 1765 5236 7748; G2 XOR 5449 5266 7642;
  G2 XOR 1796 5449 7644; G2 XOR 7644 5266 5478; G2 XOR 1825 5478 7539; G2 XOR 7539 5294 5506;
  G2 XOR 5478 5294 7537; G2 AND 7538 7537 7536; G2 XOR 7536 5294 5293; G2 XOR 1824 5293 7534;
  G2 XOR 1853 5506 7438; G2 XOR 7438 5321 5533; G2 XOR 5506 5321 7436; G2 AND 7437 7436 7435;
  G2 XOR 7435 5321 5320; G2 XOR 1852 5320 7433; G2 XOR 5533 5347 7339; G2 XOR 1880 5533 7341;
  G2 XOR 7341 5347 5559; G2 XOR 1906 5559 13778; G2 AND 1906 5559 5371; G2 AND 7340 7339 7338;
  G2 XOR 7338 5347 5346; G2 XOR 1879 5346 7336; G2 XOR 1905 5371 7243; G2 AND 7643 7642 7641;
  G2 XOR 7641 5266 5265; G2 XOR 1795 5265 7639; G2 XOR 1703 4900 7982; G2 AND 7982 7981 7980;
  G2 XOR 7980 4900 4899; G2 XOR 5143 4899 7977; G2 XOR 7979 4899 5175; G2 XOR 1702 4899 7978;
  G2 AND 7978 7977 7976; G2 XOR 7976 4899 4898; G2 XOR 5142 4898 7973; G2 XOR 7975 4898 5174;
  G2 XOR 1734 5175 7862; G2 XOR 7862 5206 5418; G2 XOR 1765 5418 7749; G2 XOR 7749 5236 5448;
  G2 XOR 5448 5265 7638; G2 XOR 5418 5236 7747; G2 AND 7748 7747 7746; G2 XOR 7746 5236 5235;
  G2 XOR 1764 5235 7744; G2 XOR 1795 5448 7640; G2 XOR 7640 5265 5477; G2 XOR 1824 5477 7535;
  G2 XOR 7535 5293 5505; G2 XOR 5477 5293 7533; G2 AND 7534 7533 7532; G2 XOR 7532 5293 5292;
  G2 XOR 1823 5292 7530; G2 XOR 1852 5505 7434; G2 XOR 7434 5320 5532; G2 XOR 5505 5320 7432;
  G2 AND 7433 7432 7431; G2 XOR 7431 5320 5319; G2 XOR 1851 5319 7429; G2 XOR 1879 5532 7337;
  G2 XOR 7337 5346 5558; G2 XOR 5532 5346 7335; G2 AND 7336 7335 7334; G2 XOR 7334 5346 5345;
  G2 XOR 1878 5345 7332; G2 XOR 1905 5558 7244; G2 XOR 7244 5371 5583; G2 XOR 1930 5583 13779;
  G2 AND 1930 5583 5394; G2 XOR 5558 5371 7242; G2 AND 7243 7242 7241; G2 XOR 7241 5371 5370;
  G2 XOR 1904 5370 7239; G2 XOR 1929 5394 7150; G2 AND 7639 7638 7637; G2 XOR 7637 5265 5264;
  G2 XOR 1794 5264 7635; G2 XOR 1733 5174 7858; G2 XOR 5175 5206 7860; G2 AND 7861 7860 7859;
  G2 XOR 7859 5206 5205; G2 XOR 7858 5205 5417; G2 XOR 1764 5417 7745; G2 XOR 7745 5235 5447;
  G2 XOR 5447 5264 7634; G2 XOR 5417 5235 7743; G2 AND 7744 7743 7742; G2 XOR 7742 5235 5234;
  G2 XOR 1763 5234 7740; G2 XOR 1794 5447 7636; G2 XOR 7636 5264 5476; G2 XOR 5476 5292 7529;
  G2 XOR 1823 5476 7531; G2 XOR 7531 5292 5504; G2 AND 7530 7529 7528; G2 XOR 7528 5292 5291;
  G2 XOR 1822 5291 7526; G2 XOR 1851 5504 7430; G2 XOR 7430 5319 5531; G2 XOR 5504 5319 7428;
  G2 AND 7429 7428 7427; G2 XOR 7427 5319 5318; G2 XOR 1850 5318 7425; G2 XOR 1878 5531 7333;
  G2 XOR 7333 5345 5557; G2 XOR 5531 5345 7331; G2 AND 7332 7331 7330; G2 XOR 7330 5345 5344;
  G2 XOR 1877 5344 7328; G2 XOR 1904 5557 7240; G2 XOR 7240 5370 5582; G2 XOR 5557 5370 7238;
  G2 AND 7239 7238 7237; G2 XOR 7237 5370 5369; G2 XOR 1903 5369 7235; G2 XOR 1929 5582 7151;
  G2 XOR 7151 5394 5606; G2 XOR 1953 5606 13780; G2 AND 1953 5606 5628; G2 XOR 5582 5394 7149;
  G2 AND 7150 7149 7148; G2 XOR 7148 5394 5393; G2 XOR 1928 5393 7146; G2 AND 7635 7634 7633;
  G2 XOR 7633 5264 5263; G2 XOR 1793 5263 7631; G2 XOR 1952 5628 7061; G2 XOR 1701 4898 7974;
  G2 AND 7974 7973 7972; G2 XOR 7972 4898 4897; G2 XOR 1700 4897 7970; G2 XOR 5141 4897 7969;
  G2 XOR 7971 4897 5173; G2 XOR 1732 5173 7854; G2 AND 7970 7969 7968; G2 XOR 7968 4897 4896;
  G2 XOR 1699 4896 7966; G2 XOR 5140 4896 7965; G2 AND 7966 7965 7964; G2 XOR 7967 4896 5172;
  G2 XOR 1731 5172 7850; G2 XOR 7964 4896 4895; G2 XOR 1698 4895 7962; G2 XOR 7963 4895 5171;
  G2 XOR 5139 4895 7961; G2 AND 7962 7961 7960; G2 XOR 7960 4895 4894; G2 XOR 7959 4894 5170;
  G2 XOR 5138 4894 7957; G2 XOR 1697 4894 7958; G2 AND 7958 7957 7956; G2 XOR 7956 4894 4893;
  G2 XOR 7955 4893 5169; G2 XOR 1730 5171 7846; G2 XOR 1729 5170 7842; G2 XOR 1728 5169 7838;
  G2 XOR 1696 4893 7954; G2 XOR 5137 4893 7953; G2 AND 7954 7953 7952; G2 XOR 7952 4893 4892;
  G2 XOR 5136 4892 7949; G2 XOR 5174 5205 7856; G2 XOR 1733 5205 7857; G2 AND 7857 7856 7855;
  G2 XOR 7855 5205 5204; G2 XOR 7854 5204 5416; G2 XOR 1763 5416 7741; G2 XOR 7741 5234 5446;
  G2 XOR 1793 5446 7632; G2 XOR 7632 5263 5475; G2 XOR 5475 5291 7525; G2 XOR 1822 5475 7527;
  G2 XOR 7527 5291 5503; G2 AND 7526 7525 7524; G2 XOR 7524 5291 5290; G2 XOR 1821 5290 7522;
  G2 XOR 1850 5503 7426; G2 XOR 7426 5318 5530; G2 XOR 5503 5318 7424; G2 AND 7425 7424 7423;
  G2 XOR 7423 5318 5317; G2 XOR 1849 5317 7421; G2 XOR 5446 5263 7630; G2 AND 7631 7630 7629;
  G2 XOR 7629 5263 5262; G2 XOR 1792 5262 7627; G2 XOR 1877 5530 7329; G2 XOR 7329 5344 5556;
  G2 XOR 5530 5344 7327; G2 AND 7328 7327 7326; G2 XOR 7326 5344 5343; G2 XOR 1876 5343 7324;
  G2 XOR 1903 5556 7236; G2 XOR 7236 5369 5581; G2 XOR 5556 5369 7234; G2 AND 7235 7234 7233;
  G2 XOR 7233 5369 5368; G2 XOR 1902 5368 7231; G2 XOR 1928 5581 7147; G2 XOR 7147 5393 5605;
  G2 XOR 5581 5393 7145; G2 AND 7146 7145 7144; G2 XOR 7144 5393 5392; G2 XOR 1927 5392 7142;
  G2 XOR 1952 5605 7062; G2 XOR 7062 5628 5776; G2 XOR 1975 5776 13781; G2 AND 1975 5776 5649;
  G2 XOR 5605 5628 7060; G2 AND 7061 7060 7059; G2 XOR 7059 5628 5627; G2 XOR 1951 5627 7057;
  G2 XOR 5416 5234 7739; G2 AND 7740 7739 7738; G2 XOR 7738 5234 5233; G2 XOR 1762 5233 7736;
  G2 XOR 1974 5649 6976; G2 XOR 1732 5204 7853; G2 XOR 5173 5204 7852; G2 AND 7853 7852 7851;
  G2 XOR 7851 5204 5203; G2 XOR 7850 5203 5415; G2 XOR 1731 5203 7849; G2 XOR 5172 5203 7848;
  G2 AND 7849 7848 7847; G2 XOR 7847 5203 5202; G2 XOR 1730 5202 7845; G2 XOR 7846 5202 5414;
  G2 XOR 5171 5202 7844; G2 AND 7845 7844 7843; G2 XOR 7843 5202 5201; G2 XOR 7842 5201 5413;
  G2 XOR 1729 5201 7841; G2 XOR 5170 5201 7840; G2 AND 7841 7840 7839; G2 XOR 7839 5201 5200;
  G2 XOR 7838 5200 5412; G2 XOR 5169 5200 7836; G2 XOR 1728 5200 7837; G2 AND 7837 7836 7835;
  G2 XOR 7835 5200 5199; G2 XOR 1727 5199 7833; G2 XOR 1762 5415 7737; G2 XOR 7737 5233 5445;
  G2 XOR 1792 5445 7628; G2 XOR 7628 5262 5474; G2 XOR 5474 5290 7521; G2 XOR 1821 5474 7523;
  G2 XOR 7523 5290 5502; G2 AND 7522 7521 7520; G2 XOR 7520 5290 5289; G2 XOR 1820 5289 7518;
  G2 XOR 1849 5502 7422; G2 XOR 7422 5317 5529; G2 XOR 5502 5317 7420; G2 AND 7421 7420 7419;
  G2 XOR 7419 5317 5316; G2 XOR 1848 5316 7417; G2 XOR 1876 5529 7325; G2 XOR 7325 5343 5555;
  G2 XOR 5529 5343 7323; G2 AND 7324 7323 7322; G2 XOR 7322 5343 5342; G2 XOR 1875 5342 7320;
  G2 XOR 5445 5262 7626; G2 AND 7627 7626 7625; G2 XOR 7625 5262 5261; G2 XOR 1791 5261 7623;
  G2 XOR 1902 5555 7232; G2 XOR 7232 5368 5580; G2 XOR 5555 5368 7230; G2 AND 7231 7230 7229;
  G2 XOR 7229 5368 5367; G2 XOR 1901 5367 7227; G2 XOR 1927 5580 7143; G2 XOR 7143 5392 5604;
  G2 XOR 5580 5392 7141; G2 AND 7142 7141 7140; G2 XOR 7140 5392 5391; G2 XOR 1926 5391 7138;
  G2 XOR 1951 5604 7058; G2 XOR 7058 5627 5775; G2 XOR 5604 5627 7056; G2 AND 7057 7056 7055;
  G2 XOR 7055 5627 5626; G2 XOR 1950 5626 7053; G2 XOR 1974 5775 6977; G2 XOR 6977 5649 5797;
  G2 XOR 1996 5797 13782; G2 AND 1996 5797 5669; G2 XOR 5775 5649 6975; G2 AND 6976 6975 6974;
  G2 XOR 6974 5649 5648; G2 XOR 1973 5648 6972; G2 XOR 5415 5233 7735; G2 AND 7736 7735 7734;
  G2 XOR 7734 5233 5232; G2 XOR 1761 5232 7732; G2 XOR 1761 5414 7733; G2 XOR 7733 5232 5444;
  G2 XOR 1791 5444 7624; G2 XOR 7624 5261 5473; G2 XOR 1820 5473 7519; G2 XOR 7519 5289 5501;
  G2 XOR 5473 5289 7517; G2 AND 7518 7517 7516; G2 XOR 7516 5289 5288; G2 XOR 1819 5288 7514;
  G2 XOR 1848 5501 7418; G2 XOR 7418 5316 5528; G2 XOR 5501 5316 7416; G2 AND 7417 7416 7415;
  G2 XOR 7415 5316 5315; G2 XOR 1847 5315 7413; G2 XOR 5528 5342 7319; G2 XOR 1875 5528 7321;
  G2 XOR 7321 5342 5554; G2 AND 7320 7319 7318; G2 XOR 7318 5342 5341; G2 XOR 1874 5341 7316;
  G2 XOR 1901 5554 7228; G2 XOR 7228 5367 5579; G2 XOR 5554 5367 7226; G2 AND 7227 7226 7225;
  G2 XOR 7225 5367 5366; G2 XOR 1900 5366 7223; G2 XOR 5444 5261 7622; G2 AND 7623 7622 7621;
  G2 XOR 7621 5261 5260; G2 XOR 1790 5260 7619; G2 XOR 1926 5579 7139; G2 XOR 7139 5391 5603;
  G2 XOR 5579 5391 7137; G2 AND 7138 7137 7136; G2 XOR 7136 5391 5390; G2 XOR 1925 5390 7134;
  G2 XOR 1950 5603 7054; G2 XOR 7054 5626 5774; G2 XOR 5603 5626 7052; G2 AND 7053 7052 7051;
  G2 XOR 7051 5626 5625; G2 XOR 1949 5625 7049; G2 XOR 1973 5774 6973; G2 XOR 6973 5648 5796;
  G2 XOR 1995 5796 6896; G2 XOR 5774 5648 6971; G2 AND 6972 6971 6970; G2 XOR 6970 5648 5647;
  G2 XOR 1972 5647 6968; G2 XOR 6896 5669 5817; G2 XOR 2016 5817 13783; G2 AND 2016 5817 5688;
  G2 XOR 5796 5669 6894; G2 XOR 1995 5669 6895; G2 AND 6895 6894 6893; G2 XOR 6893 5669 5668;
  G2 XOR 1994 5668 6891; G2 XOR 2015 5688 6818; G2 XOR 5414 5232 7731; G2 AND 7732 7731 7730;
  G2 XOR 7730 5232 5231; G2 XOR 1760 5413 7729; G2 XOR 7729 5231 5443; G2 XOR 5443 5260 7618;
  G2 XOR 1790 5443 7620; G2 XOR 7620 5260 5472; G2 XOR 1819 5472 7515; G2 XOR 7515 5288 5500;
  G2 XOR 5472 5288 7513; G2 AND 7514 7513 7512; G2 XOR 7512 5288 5287; G2 XOR 1818 5287 7510;
  G2 XOR 1847 5500 7414; G2 XOR 7414 5315 5527; G2 XOR 5500 5315 7412; G2 AND 7413 7412 7411;
  G2 XOR 7411 5315 5314; G2 XOR 1846 5314 7409; G2 XOR 1874 5527 7317; G2 XOR 7317 5341 5553;
  G2 XOR 5527 5341 7315; G2 AND 7316 7315 7314; G2 XOR 7314 5341 5340; G2 XOR 1873 5340 7312;
  G2 XOR 1900 5553 7224; G2 XOR 7224 5366 5578; G2 XOR 5553 5366 7222; G2 AND 7223 7222 7221;
  G2 XOR 7221 5366 5365; G2 XOR 1899 5365 7219; G2 AND 7619 7618 7617; G2 XOR 7617 5260 5259;
  G2 XOR 1925 5578 7135; G2 XOR 7135 5390 5602; G2 XOR 5578 5390 7133; G2 AND 7134 7133 7132;
  G2 XOR 7132 5390 5389; G2 XOR 1924 5389 7130; G2 XOR 1949 5602 7050; G2 XOR 7050 5625 5773;
  G2 XOR 5602 5625 7048; G2 AND 7049 7048 7047; G2 XOR 7047 5625 5624; G2 XOR 1948 5624 7045;
  G2 XOR 1789 5259 7615; G2 XOR 1972 5773 6969; G2 XOR 5773 5647 6967; G2 XOR 6969 5647 5795;
  G2 AND 6968 6967 6966; G2 XOR 6966 5647 5646; G2 XOR 1971 5646 6964; G2 XOR 5795 5668 6890;
  G2 XOR 1994 5795 6892; G2 XOR 6892 5668 5816; G2 AND 6891 6890 6889; G2 XOR 6889 5668 5667;
  G2 XOR 1993 5667 6887; G2 XOR 5816 5688 6817; G2 XOR 2015 5816 6819; G2 XOR 6819 5688 5836;
  G2 XOR 2035 5836 13784; G2 AND 2035 5836 5706; G2 XOR 2034 5706 6745; G2 AND 6818 6817 6816;
  G2 XOR 6816 5688 5687; G2 XOR 2014 5687 6814; G2 XOR 1760 5231 7728; G2 XOR 1759 5412 7725;
  G2 XOR 5413 5231 7727; G2 AND 7728 7727 7726; G2 XOR 7726 5231 5230; G2 XOR 5412 5230 7723;
  G2 XOR 7725 5230 5442; G2 XOR 1789 5442 7616; G2 XOR 7616 5259 5471; G2 XOR 1818 5471 7511;
  G2 XOR 7511 5287 5499; G2 XOR 5471 5287 7509; G2 AND 7510 7509 7508; G2 XOR 7508 5287 5286;
  G2 XOR 1817 5286 7506; G2 XOR 1846 5499 7410; G2 XOR 7410 5314 5526; G2 XOR 5499 5314 7408;
  G2 AND 7409 7408 7407; G2 XOR 7407 5314 5313; G2 XOR 1845 5313 7405; G2 XOR 1873 5526 7313;
  G2 XOR 7313 5340 5552; G2 XOR 5526 5340 7311; G2 AND 7312 7311 7310; G2 XOR 7310 5340 5339;
  G2 XOR 1872 5339 7308; G2 XOR 1899 5552 7220; G2 XOR 7220 5365 5577; G2 XOR 5552 5365 7218;
  G2 AND 7219 7218 7217; G2 XOR 7217 5365 5364; G2 XOR 1898 5364 7215; G2 XOR 1924 5577 7131;
  G2 XOR 7131 5389 5601; G2 XOR 5577 5389 7129; G2 AND 7130 7129 7128; G2 XOR 7128 5389 5388;
  G2 XOR 1923 5388 7126; G2 XOR 1948 5601 7046; G2 XOR 7046 5624 5772; G2 XOR 5601 5624 7044;
  G2 AND 7045 7044 7043; G2 XOR 7043 5624 5623; G2 XOR 1947 5623 7041; G2 XOR 5442 5259 7614;
  G2 AND 7615 7614 7613; G2 XOR 7613 5259 5258; G2 XOR 1788 5258 7611; G2 XOR 5772 5646 6963;
  G2 AND 6964 6963 6962; G2 XOR 6962 5646 5645; G2 XOR 1971 5772 6965; G2 XOR 6965 5646 5794;
  G2 XOR 1970 5645 6960; G2 XOR 5794 5667 6886; G2 AND 6887 6886 6885; G2 XOR 6885 5667 5666;
  G2 XOR 1993 5794 6888; G2 XOR 6888 5667 5815; G2 XOR 1992 5666 6883; G2 XOR 5815 5687 6813;
  G2 XOR 2014 5815 6815; G2 XOR 6815 5687 5835; G2 XOR 2034 5835 6746; G2 XOR 6746 5706 5854;
  G2 XOR 2053 5854 13785; G2 AND 2053 5854 5723; G2 AND 6814 6813 6812; G2 XOR 6812 5687 5686;
  G2 XOR 2013 5686 6810; G2 XOR 5835 5706 6744; G2 AND 6745 6744 6743; G2 XOR 6743 5706 5705;
  G2 XOR 2033 5705 6741; G2 XOR 1759 5230 7724; G2 AND 7724 7723 7722; G2 XOR 7722 5230 5229;
  G2 XOR 1758 5229 7720; G2 XOR 2052 5723 6676; G2 XOR 7951 4892 5168; G2 XOR 1727 5168 7834;
  G2 XOR 7834 5199 5411; G2 XOR 5168 5199 7832; G2 AND 7833 7832 7831; G2 XOR 7831 5199 5198;
  G2 XOR 1726 5198 7829; G2 XOR 1758 5411 7721; G2 XOR 7721 5229 5441; G2 XOR 5441 5258 7610;
  G2 AND 7611 7610 7609; G2 XOR 1788 5441 7612; G2 XOR 7612 5258 5470; G2 XOR 1817 5470 7507;
  G2 XOR 7507 5286 5498; G2 XOR 5470 5286 7505; G2 AND 7506 7505 7504; G2 XOR 7504 5286 5285;
  G2 XOR 1816 5285 7502; G2 XOR 1845 5498 7406; G2 XOR 7406 5313 5525; G2 XOR 5498 5313 7404;
  G2 AND 7405 7404 7403; G2 XOR 7403 5313 5312; G2 XOR 1844 5312 7401; G2 XOR 1872 5525 7309;
  G2 XOR 7309 5339 5551; G2 XOR 5525 5339 7307; G2 AND 7308 7307 7306; G2 XOR 7306 5339 5338;
  G2 XOR 1871 5338 7304; G2 XOR 1898 5551 7216; G2 XOR 7216 5364 5576; G2 XOR 5551 5364 7214;
  G2 AND 7215 7214 7213; G2 XOR 7213 5364 5363; G2 XOR 1897 5363 7211; G2 XOR 1923 5576 7127;
  G2 XOR 7127 5388 5600; G2 XOR 5576 5388 7125; G2 AND 7126 7125 7124; G2 XOR 7124 5388 5387;
  G2 XOR 1922 5387 7122; G2 XOR 1947 5600 7042; G2 XOR 7042 5623 5771; G2 XOR 5771 5645 6959;
  G2 XOR 5600 5623 7040; G2 AND 7041 7040 7039; G2 XOR 7039 5623 5622; G2 XOR 1946 5622 7037;
  G2 XOR 7609 5258 5257; G2 XOR 1787 5257 7607; G2 AND 6960 6959 6958; G2 XOR 6958 5645 5644;
  G2 XOR 1969 5644 6956; G2 XOR 1970 5771 6961; G2 XOR 6961 5645 5793; G2 XOR 1992 5793 6884;
  G2 XOR 6884 5666 5814; G2 XOR 5793 5666 6882; G2 AND 6883 6882 6881; G2 XOR 6881 5666 5665;
  G2 XOR 1991 5665 6879; G2 XOR 2013 5814 6811; G2 XOR 6811 5686 5834; G2 XOR 2033 5834 6742;
  G2 XOR 6742 5705 5853; G2 XOR 5853 5723 6675; G2 XOR 5814 5686 6809; G2 AND 6810 6809 6808;
  G2 XOR 6808 5686 5685; G2 XOR 2012 5685 6806; G2 XOR 5834 5705 6740; G2 AND 6741 6740 6739;
  G2 XOR 6739 5705 5704; G2 XOR 2032 5704 6737; G2 XOR 2052 5853 6677; G2 XOR 6677 5723 5871;
  G2 XOR 2070 5871 13786; G2 AND 2070 5871 5739; G2 AND 6676 6675 6674; G2 XOR 6674 5723 5722;
  G2 XOR 2051 5722 6672; G2 XOR 2069 5739 6611; G2 XOR 5411 5229 7719; G2 AND 7720 7719 7718;
  G2 XOR 7718 5229 5228; G2 XOR 1757 5228 7716; G2 XOR 1695 4892 7950; G2 AND 7950 7949 7948;
  G2 XOR 7948 4892 4891; G2 XOR 5135 4891 7945; G2 XOR 1694 4891 7946; G2 XOR 7947 4891 5167;
  G2 XOR 5167 5198 7828; G2 XOR 1726 5167 7830; G2 XOR 7830 5198 5410; G2 XOR 5410 5228 7715;
  G2 AND 7946 7945 7944; G2 XOR 7944 4891 4890; G2 XOR 7943 4890 5166; G2 XOR 5134 4890 7941;
  G2 XOR 1693 4890 7942; G2 AND 7942 7941 7940; G2 XOR 7940 4890 4889; G2 XOR 7939 4889 5165;
  G2 XOR 1724 5165 7822; G2 XOR 1692 4889 7938; G2 XOR 5133 4889 7937; G2 AND 7938 7937 7936;
  G2 XOR 7936 4889 4888; G2 XOR 7935 4888 5164; G2 XOR 1723 5164 7818; G2 XOR 1691 4888 7934;
  G2 XOR 5132 4888 7933; G2 AND 7934 7933 7932; G2 XOR 1725 5166 7826; G2 XOR 7932 4888 4887;
  G2 XOR 1690 4887 7930; G2 XOR 7931 4887 5163; G2 XOR 1722 5163 7814; G2 XOR 5131 4887 7929;
  G2 AND 7829 7828 7827; G2 XOR 7827 5198 5197; G2 XOR 5166 5197 7824; G2 XOR 1725 5197 7825;
  G2 XOR 7826 5197 5409; G2 AND 7825 7824 7823; G2 XOR 7823 5197 5196; G2 XOR 5165 5196 7820;
  G2 XOR 1724 5196 7821; G2 AND 7821 7820 7819; G2 XOR 7819 5196 5195; G2 XOR 5164 5195 7816;
  G2 XOR 7818 5195 5407; G2 XOR 1754 5407 7705; G2 XOR 1723 5195 7817; G2 AND 7817 7816 7815;
  G2 XOR 7815 5195 5194; G2 XOR 7814 5194 5406; G2 XOR 1753 5406 7701; G2 XOR 1722 5194 7813;
  G2 XOR 5163 5194 7812; G2 AND 7813 7812 7811; G2 XOR 7811 5194 5193; G2 XOR 1721 5193 7809;
  G2 XOR 7822 5196 5408; G2 XOR 1757 5410 7717; G2 XOR 7717 5228 5440; G2 XOR 1787 5440 7608;
  G2 XOR 7608 5257 5469; G2 XOR 1816 5469 7503; G2 XOR 7503 5285 5497; G2 XOR 5469 5285 7501;
  G2 AND 7502 7501 7500; G2 XOR 7500 5285 5284; G2 XOR 1815 5284 7498; G2 XOR 1844 5497 7402;
  G2 XOR 7402 5312 5524; G2 XOR 5497 5312 7400; G2 AND 7401 7400 7399; G2 XOR 7399 5312 5311;
  G2 XOR 1843 5311 7397; G2 XOR 1871 5524 7305; G2 XOR 7305 5338 5550; G2 XOR 5524 5338 7303;
  G2 AND 7304 7303 7302; G2 XOR 7302 5338 5337; G2 XOR 1870 5337 7300; G2 XOR 1897 5550 7212;
  G2 XOR 7212 5363 5575; G2 XOR 5550 5363 7210; G2 AND 7211 7210 7209; G2 XOR 7209 5363 5362;
  G2 XOR 1896 5362 7207; G2 XOR 1922 5575 7123; G2 XOR 7123 5387 5599; G2 XOR 5575 5387 7121;
  G2 AND 7122 7121 7120; G2 XOR 7120 5387 5386; G2 XOR 1921 5386 7118; G2 XOR 1946 5599 7038;
  G2 XOR 7038 5622 5770; G2 XOR 5770 5644 6955; G2 XOR 5599 5622 7036; G2 AND 7037 7036 7035;
  G2 XOR 7035 5622 5621; G2 XOR 1945 5621 7033; G2 XOR 5440 5257 7606; G2 AND 7607 7606 7605;
  G2 XOR 7605 5257 5256; G2 AND 6956 6955 6954; G2 XOR 1969 5770 6957; G2 XOR 6957 5644 5792;
  G2 XOR 1991 5792 6880; G2 XOR 6954 5644 5643; G2 XOR 1968 5643 6952; G2 XOR 6880 5665 5813;
  G2 XOR 2012 5813 6807; G2 XOR 5792 5665 6878; G2 AND 6879 6878 6877; G2 XOR 6877 5665 5664;
  G2 XOR 1990 5664 6875; G2 XOR 5813 5685 6805; G2 XOR 6807 5685 5833; G2 XOR 5833 5704 6736;
  G2 AND 6806 6805 6804; G2 XOR 6804 5685 5684; G2 XOR 2011 5684 6802; G2 XOR 2032 5833 6738;
  G2 XOR 6738 5704 5852; G2 XOR 5852 5722 6671; G2 AND 6737 6736 6735; G2 XOR 6735 5704 5703;
  G2 XOR 2031 5703 6733; G2 AND 6672 6671 6670; G2 XOR 2051 5852 6673; G2 XOR 6673 5722 5870;
  G2 XOR 2069 5870 6612; G2 XOR 6670 5722 5721; G2 XOR 2050 5721 6668; G2 XOR 6612 5739 5887;
  G2 XOR 2086 5887 13787; G2 AND 2086 5887 5754; G2 XOR 2085 5754 6550; G2 XOR 5870 5739 6610;
  G2 AND 6611 6610 6609; G2 XOR 6609 5739 5738; G2 XOR 2068 5738 6607; G2 AND 7716 7715 7714;
  G2 XOR 7714 5228 5227; G2 XOR 5409 5227 7711; G2 XOR 1756 5227 7712; G2 AND 7712 7711 7710;
  G2 XOR 7710 5227 5226; G2 XOR 5408 5226 7707; G2 XOR 1755 5226 7708; G2 AND 7708 7707 7706;
  G2 XOR 7706 5226 5225; G2 XOR 7705 5225 5437; G2 XOR 1784 5437 7596; G2 XOR 5407 5225 7703;
  G2 XOR 1754 5225 7704; G2 AND 7704 7703 7702; G2 XOR 7702 5225 5224; G2 XOR 7701 5224 5436;
  G2 XOR 5406 5224 7699; G2 XOR 1783 5436 7592; G2 XOR 1753 5224 7700; G2 AND 7700 7699 7698;
  G2 XOR 7698 5224 5223; G2 XOR 1752 5223 7696; G2 AND 7930 7929 7928; G2 XOR 7928 4887 4886;
  G2 XOR 1689 4886 7926; G2 XOR 5130 4886 7925; G2 AND 7926 7925 7924; G2 XOR 7924 4886 4885;
  G2 XOR 7923 4885 5161; G2 XOR 1688 4885 7922; G2 XOR 5129 4885 7921; G2 AND 7922 7921 7920;
  G2 XOR 7920 4885 4884; G2 XOR 7919 4884 5160; G2 XOR 1687 4884 7918; G2 XOR 5128 4884 7917;
  G2 XOR 1720 5161 7806; G2 XOR 7927 4886 5162; G2 XOR 1721 5162 7810; G2 XOR 7810 5193 5405;
  G2 XOR 1752 5405 7697; G2 XOR 5162 5193 7808; G2 AND 7809 7808 7807; G2 XOR 7807 5193 5192;
  G2 XOR 7806 5192 5404; G2 XOR 5405 5223 7695; G2 XOR 7697 5223 5435; G2 XOR 1751 5404 7693;
  G2 AND 7918 7917 7916; G2 XOR 7916 4884 4883; G2 XOR 5127 4883 7913; G2 XOR 7915 4883 5159;
  G2 XOR 1686 4883 7914; G2 AND 7914 7913 7912; G2 XOR 7912 4883 4882; G2 XOR 7911 4882 5158;
  G2 XOR 5126 4882 7909; G2 XOR 1685 4882 7910; G2 AND 7910 7909 7908; G2 XOR 7908 4882 4881;
  G2 XOR 7907 4881 5157; G2 XOR 1716 5157 7790; G2 XOR 5125 4881 7905; G2 AND 7696 7695 7694;
  G2 XOR 7694 5223 5222; G2 XOR 5404 5222 7691; G2 XOR 1751 5222 7692; G2 AND 7692 7691 7690;
  G2 XOR 7690 5222 5221; G2 XOR 1750 5221 7688; G2 XOR 7693 5222 5434; G2 XOR 1684 4881 7906;
  G2 AND 7906 7905 7904; G2 XOR 7904 4881 4880; G2 XOR 7903 4880 5156; G2 XOR 1715 5156 7786;
  G2 XOR 1719 5160 7802; G2 XOR 5161 5192 7804; G2 XOR 1781 5434 7584; G2 XOR 1782 5435 7588;
  G2 XOR 1720 5192 7805; G2 AND 7805 7804 7803; G2 XOR 7803 5192 5191; G2 XOR 1719 5191 7801;
  G2 XOR 7802 5191 5403; G2 XOR 1750 5403 7689; G2 XOR 7689 5221 5433; G2 XOR 5403 5221 7687;
  G2 AND 7688 7687 7686; G2 XOR 1718 5159 7798; G2 XOR 5160 5191 7800; G2 AND 7801 7800 7799;
  G2 XOR 7799 5191 5190; G2 XOR 7798 5190 5402; G2 XOR 1749 5402 7685; G2 XOR 1780 5433 7580;
  G2 XOR 5124 4880 7901; G2 XOR 1683 4880 7902; G2 AND 7902 7901 7900; G2 XOR 7900 4880 4879;
  G2 XOR 1682 4879 7898; G2 XOR 5123 4879 7897; G2 AND 7898 7897 7896; G2 XOR 7899 4879 5155;
  G2 XOR 1714 5155 7782; G2 XOR 7896 4879 4878; G2 XOR 7895 4878 5154; G2 XOR 1681 4878 7894;
  G2 XOR 5122 4878 7893; G2 AND 7894 7893 7892; G2 XOR 7892 4878 4877; G2 XOR 7891 4877 5153;
  G2 XOR 5121 4877 7889; G2 XOR 1680 4877 7890; G2 AND 7890 7889 7888; G2 XOR 7888 4877 4876;
  G2 XOR 7887 4876 5152; G2 XOR 1713 5154 7778; G2 XOR 1712 5153 7774; G2 XOR 1711 5152 7770;
  G2 XOR 1718 5190 7797; G2 XOR 1717 5158 7794; G2 XOR 5159 5190 7796; G2 AND 7797 7796 7795;
  G2 XOR 7795 5190 5189; G2 XOR 7794 5189 5401; G2 XOR 1748 5401 7681; G2 XOR 1717 5189 7793;
  G2 XOR 5158 5189 7792; G2 AND 7793 7792 7791; G2 XOR 7791 5189 5188; G2 XOR 5157 5188 7788;
  G2 XOR 1716 5188 7789; G2 AND 7789 7788 7787; G2 XOR 7787 5188 5187; G2 XOR 7786 5187 5399;
  G2 XOR 1715 5187 7785; G2 XOR 5156 5187 7784; G2 AND 7785 7784 7783; G2 XOR 7783 5187 5186;
  G2 XOR 5155 5186 7780; G2 XOR 1746 5399 7673; G2 XOR 7782 5186 5398; G2 XOR 1714 5186 7781;
  G2 AND 7781 7780 7779; G2 XOR 7779 5186 5185; G2 XOR 7778 5185 5397; G2 XOR 1744 5397 7665;
  G2 XOR 1745 5398 7669; G2 XOR 1713 5185 7777; G2 XOR 5154 5185 7776; G2 AND 7777 7776 7775;
  G2 XOR 7775 5185 5184; G2 XOR 7774 5184 5396; G2 XOR 1743 5396 7661; G2 XOR 5153 5184 7772;
  G2 XOR 1712 5184 7773; G2 AND 7773 7772 7771; G2 XOR 7771 5184 5183; G2 XOR 7770 5183 5395;
  G2 XOR 1742 5395 7657; G2 XOR 7790 5188 5400; G2 XOR 1747 5400 7677; G2 XOR 7686 5221 5220;
  G2 XOR 7685 5220 5432; G2 XOR 5402 5220 7683; G2 XOR 1749 5220 7684; G2 AND 7684 7683 7682;
  G2 XOR 7682 5220 5219; G2 XOR 5401 5219 7679; G2 XOR 1748 5219 7680; G2 AND 7680 7679 7678;
  G2 XOR 7681 5219 5431; G2 XOR 1779 5432 7576; G2 XOR 7678 5219 5218; G2 XOR 7677 5218 5430;
  G2 XOR 1777 5430 7568; G2 XOR 5400 5218 7675; G2 XOR 1747 5218 7676; G2 AND 7676 7675 7674;
  G2 XOR 7674 5218 5217; G2 XOR 7673 5217 5429; G2 XOR 1776 5429 7564; G2 XOR 5399 5217 7671;
  G2 XOR 1746 5217 7672; G2 AND 7672 7671 7670; G2 XOR 7670 5217 5216; G2 XOR 7669 5216 5428;
  G2 XOR 1775 5428 7560; G2 XOR 5398 5216 7667; G2 XOR 1745 5216 7668; G2 AND 7668 7667 7666;
  G2 XOR 7666 5216 5215; G2 XOR 7665 5215 5427; G2 XOR 1774 5427 7556; G2 XOR 1744 5215 7664;
  G2 XOR 5397 5215 7663; G2 AND 7664 7663 7662; G2 XOR 7662 5215 5214; G2 XOR 5396 5214 7659;
  G2 XOR 1743 5214 7660; G2 AND 7660 7659 7658; G2 XOR 7661 5214 5426; G2 XOR 1778 5431 7572;
  G2 XOR 7658 5214 5213; G2 XOR 7657 5213 5425; G2 XOR 1772 5425 7548; G2 XOR 1773 5426 7552;
  G2 XOR 1755 5408 7709; G2 XOR 7709 5226 5438; G2 XOR 1785 5438 7600; G2 XOR 1756 5409 7713;
  G2 XOR 7713 5227 5439; G2 XOR 5439 5256 7602; G2 XOR 1786 5439 7604; G2 XOR 7604 5256 5468;
  G2 XOR 1815 5468 7499; G2 XOR 7499 5284 5496; G2 XOR 5468 5284 7497; G2 AND 7498 7497 7496;
  G2 XOR 7496 5284 5283; G2 XOR 1814 5283 7494; G2 XOR 1843 5496 7398; G2 XOR 7398 5311 5523;
  G2 XOR 5496 5311 7396; G2 AND 7397 7396 7395; G2 XOR 7395 5311 5310; G2 XOR 1842 5310 7393;
  G2 XOR 5523 5337 7299; G2 XOR 1870 5523 7301; G2 XOR 7301 5337 5549; G2 AND 7300 7299 7298;
  G2 XOR 7298 5337 5336; G2 XOR 1869 5336 7296; G2 XOR 1896 5549 7208; G2 XOR 7208 5362 5574;
  G2 XOR 5549 5362 7206; G2 AND 7207 7206 7205; G2 XOR 7205 5362 5361; G2 XOR 1895 5361 7203;
  G2 XOR 1921 5574 7119; G2 XOR 7119 5386 5598; G2 XOR 5574 5386 7117; G2 AND 7118 7117 7116;
  G2 XOR 7116 5386 5385; G2 XOR 1920 5385 7114; G2 XOR 1945 5598 7034; G2 XOR 7034 5621 5769;
  G2 XOR 1968 5769 6953; G2 XOR 5598 5621 7032; G2 AND 7033 7032 7031; G2 XOR 7031 5621 5620;
  G2 XOR 1944 5620 7029; G2 XOR 6953 5643 5791; G2 XOR 5769 5643 6951; G2 AND 6952 6951 6950;
  G2 XOR 6950 5643 5642; G2 XOR 1967 5642 6948; G2 XOR 1990 5791 6876; G2 XOR 6876 5664 5812;
  G2 XOR 5791 5664 6874; G2 AND 6875 6874 6873; G2 XOR 6873 5664 5663; G2 XOR 1989 5663 6871;
  G2 XOR 2011 5812 6803; G2 XOR 6803 5684 5832; G2 XOR 5832 5703 6732; G2 XOR 5812 5684 6801;
  G2 AND 6802 6801 6800; G2 XOR 6800 5684 5683; G2 XOR 2010 5683 6798; G2 XOR 2031 5832 6734;
  G2 XOR 6734 5703 5851; G2 XOR 5851 5721 6667; G2 AND 6733 6732 6731; G2 XOR 6731 5703 5702;
  G2 XOR 2030 5702 6729; G2 XOR 2050 5851 6669; G2 XOR 6669 5721 5869; G2 XOR 5869 5738 6606;
  G2 XOR 2068 5869 6608; G2 XOR 6608 5738 5886; G2 XOR 5886 5754 6549; G2 AND 6550 6549 6548;
  G2 XOR 6548 5754 5753; G2 XOR 2084 5753 6546; G2 AND 6668 6667 6666; G2 XOR 6666 5721 5720;
  G2 XOR 2049 5720 6664; G2 AND 6607 6606 6605; G2 XOR 6605 5738 5737; G2 XOR 2067 5737 6603;
  G2 XOR 2085 5886 6551; G2 XOR 6551 5754 5902; G2 XOR 2101 5902 13788; G2 AND 2101 5902 5916;
  G2 XOR 2100 5916 6493; G2 XOR 1786 5256 7603; G2 AND 7603 7602 7601; G2 XOR 7601 5256 5255;
  G2 XOR 5438 5255 7598; G2 XOR 7600 5255 5467; G2 XOR 1814 5467 7495; G2 XOR 7495 5283 5495;
  G2 XOR 5467 5283 7493; G2 AND 7494 7493 7492; G2 XOR 7492 5283 5282; G2 XOR 1813 5282 7490;
  G2 XOR 1842 5495 7394; G2 XOR 7394 5310 5522; G2 XOR 5495 5310 7392; G2 AND 7393 7392 7391;
  G2 XOR 7391 5310 5309; G2 XOR 1841 5309 7389; G2 XOR 1869 5522 7297; G2 XOR 7297 5336 5548;
  G2 XOR 5522 5336 7295; G2 AND 7296 7295 7294; G2 XOR 7294 5336 5335; G2 XOR 1868 5335 7292;
  G2 XOR 1895 5548 7204; G2 XOR 7204 5361 5573; G2 XOR 5548 5361 7202; G2 AND 7203 7202 7201;
  G2 XOR 7201 5361 5360; G2 XOR 1894 5360 7199; G2 XOR 1920 5573 7115; G2 XOR 7115 5385 5597;
  G2 XOR 5573 5385 7113; G2 AND 7114 7113 7112; G2 XOR 7112 5385 5384; G2 XOR 1919 5384 7110;
  G2 XOR 1944 5597 7030; G2 XOR 7030 5620 5768; G2 XOR 5597 5620 7028; G2 AND 7029 7028 7027;
  G2 XOR 7027 5620 5619; G2 XOR 1943 5619 7025; G2 XOR 5768 5642 6947; G2 AND 6948 6947 6946;
  G2 XOR 6946 5642 5641; G2 XOR 1966 5641 6944; G2 XOR 1785 5255 7599; G2 AND 7599 7598 7597;
  G2 XOR 7597 5255 5254; G2 XOR 5437 5254 7594; G2 XOR 7596 5254 5466; G2 XOR 1813 5466 7491;
  G2 XOR 5466 5282 7489; G2 XOR 7491 5282 5494; G2 XOR 1841 5494 7390; G2 XOR 7390 5309 5521;
  G2 XOR 5494 5309 7388; G2 AND 7389 7388 7387; G2 XOR 7387 5309 5308; G2 XOR 1840 5308 7385;
  G2 XOR 1868 5521 7293; G2 XOR 7293 5335 5547; G2 XOR 5521 5335 7291; G2 AND 7292 7291 7290;
  G2 XOR 7290 5335 5334; G2 XOR 1867 5334 7288; G2 AND 7490 7489 7488; G2 XOR 7488 5282 5281;
  G2 XOR 1812 5281 7486; G2 XOR 1894 5547 7200; G2 XOR 7200 5360 5572; G2 XOR 5547 5360 7198;
  G2 AND 7199 7198 7197; G2 XOR 7197 5360 5359; G2 XOR 1893 5359 7195; G2 XOR 1784 5254 7595;
  G2 AND 7595 7594 7593; G2 XOR 7593 5254 5253; G2 XOR 1783 5253 7591; G2 XOR 7592 5253 5465;
  G2 XOR 5465 5281 7485; G2 XOR 1812 5465 7487; G2 XOR 7487 5281 5493; G2 XOR 1840 5493 7386;
  G2 XOR 7386 5308 5520; G2 XOR 5493 5308 7384; G2 AND 7385 7384 7383; G2 XOR 7383 5308 5307;
  G2 XOR 1839 5307 7381; G2 XOR 1867 5520 7289; G2 AND 7486 7485 7484; G2 XOR 7484 5281 5280;
  G2 XOR 1811 5280 7482; G2 XOR 7289 5334 5546; G2 XOR 5520 5334 7287; G2 AND 7288 7287 7286;
  G2 XOR 7286 5334 5333; G2 XOR 1866 5333 7284; G2 XOR 1893 5546 7196; G2 XOR 7196 5359 5571;
  G2 XOR 5546 5359 7194; G2 AND 7195 7194 7193; G2 XOR 7193 5359 5358; G2 XOR 1892 5358 7191;
  G2 XOR 5436 5253 7590; G2 AND 7591 7590 7589; G2 XOR 7589 5253 5252; G2 XOR 1919 5572 7111;
  G2 XOR 7111 5384 5596; G2 XOR 5572 5384 7109; G2 AND 7110 7109 7108; G2 XOR 7108 5384 5383;
  G2 XOR 1918 5383 7106; G2 XOR 1918 5571 7107; G2 XOR 7107 5383 5595; G2 XOR 5571 5383 7105;
  G2 AND 7106 7105 7104; G2 XOR 7104 5383 5382; G2 XOR 1917 5382 7102; G2 XOR 1782 5252 7587;
  G2 XOR 7588 5252 5464; G2 XOR 1811 5464 7483; G2 XOR 7483 5280 5492; G2 XOR 1839 5492 7382;
  G2 XOR 7382 5307 5519; G2 XOR 5492 5307 7380; G2 AND 7381 7380 7379; G2 XOR 7379 5307 5306;
  G2 XOR 1838 5306 7377; G2 XOR 1866 5519 7285; G2 XOR 7285 5333 5545; G2 XOR 5519 5333 7283;
  G2 AND 7284 7283 7282; G2 XOR 7282 5333 5332; G2 XOR 1865 5332 7280; G2 XOR 5464 5280 7481;
  G2 AND 7482 7481 7480; G2 XOR 7480 5280 5279; G2 XOR 1810 5279 7478; G2 XOR 1892 5545 7192;
  G2 XOR 7192 5358 5570; G2 XOR 5545 5358 7190; G2 AND 7191 7190 7189; G2 XOR 7189 5358 5357;
  G2 XOR 1891 5357 7187; G2 XOR 1917 5570 7103; G2 XOR 7103 5382 5594; G2 XOR 5570 5382 7101;
  G2 AND 7102 7101 7100; G2 XOR 7100 5382 5381; G2 XOR 1916 5381 7098; G2 XOR 1943 5596 7026;
  G2 XOR 7026 5619 5767; G2 XOR 1942 5595 7022; G2 XOR 1941 5594 7018; G2 XOR 5596 5619 7024;
  G2 AND 7025 7024 7023; G2 XOR 7023 5619 5618; G2 XOR 7022 5618 5766; G2 XOR 1942 5618 7021;
  G2 XOR 5595 5618 7020; G2 AND 7021 7020 7019; G2 XOR 7019 5618 5617; G2 XOR 7018 5617 5765;
  G2 XOR 1941 5617 7017; G2 XOR 5594 5617 7016; G2 AND 7017 7016 7015; G2 XOR 7015 5617 5616;
  G2 XOR 1940 5616 7013; G2 XOR 5435 5252 7586; G2 AND 7587 7586 7585; G2 XOR 7585 5252 5251;
  G2 XOR 5434 5251 7582; G2 XOR 7584 5251 5463; G2 XOR 5463 5279 7477; G2 XOR 1810 5463 7479;
  G2 XOR 7479 5279 5491; G2 XOR 1838 5491 7378; G2 XOR 7378 5306 5518; G2 XOR 5491 5306 7376;
  G2 AND 7377 7376 7375; G2 XOR 7375 5306 5305; G2 XOR 1837 5305 7373; G2 XOR 5518 5332 7279;
  G2 XOR 1865 5518 7281; G2 XOR 7281 5332 5544; G2 AND 7280 7279 7278; G2 XOR 7278 5332 5331;
  G2 XOR 1864 5331 7276; G2 AND 7478 7477 7476; G2 XOR 7476 5279 5278; G2 XOR 1809 5278 7474;
  G2 XOR 1891 5544 7188; G2 XOR 7188 5357 5569; G2 XOR 5544 5357 7186; G2 AND 7187 7186 7185;
  G2 XOR 7185 5357 5356; G2 XOR 1890 5356 7183; G2 XOR 1916 5569 7099; G2 XOR 7099 5381 5593;
  G2 XOR 5569 5381 7097; G2 AND 7098 7097 7096; G2 XOR 7096 5381 5380; G2 XOR 1915 5380 7094;
  G2 XOR 1940 5593 7014; G2 XOR 7014 5616 5764; G2 XOR 5593 5616 7012; G2 AND 7013 7012 7011;
  G2 XOR 7011 5616 5615; G2 XOR 1939 5615 7009; G2 XOR 5767 5641 6943; G2 XOR 1966 5767 6945;
  G2 XOR 6945 5641 5789; G2 AND 6944 6943 6942; G2 XOR 6942 5641 5640; G2 XOR 5766 5640 6939;
  G2 XOR 1965 5766 6941; G2 XOR 6941 5640 5788; G2 XOR 1965 5640 6940; G2 AND 6940 6939 6938;
  G2 XOR 6938 5640 5639; G2 XOR 5765 5639 6935; G2 XOR 1964 5765 6937; G2 XOR 6937 5639 5787;
  G2 XOR 1986 5787 6860; G2 XOR 1964 5639 6936; G2 AND 6936 6935 6934; G2 XOR 6934 5639 5638;
  G2 XOR 1963 5764 6933; G2 XOR 6933 5638 5786; G2 XOR 5764 5638 6931; G2 XOR 1963 5638 6932;
  G2 AND 6932 6931 6930; G2 XOR 6930 5638 5637; G2 XOR 1962 5637 6928; G2 XOR 1781 5251 7583;
  G2 AND 7583 7582 7581; G2 XOR 7581 5251 5250; G2 XOR 7580 5250 5462; G2 XOR 5462 5278 7473;
  G2 XOR 1809 5462 7475; G2 AND 7474 7473 7472; G2 XOR 7472 5278 5277; G2 XOR 1808 5277 7470;
  G2 XOR 7475 5278 5490; G2 XOR 1837 5490 7374; G2 XOR 7374 5305 5517; G2 XOR 5490 5305 7372;
  G2 AND 7373 7372 7371; G2 XOR 7371 5305 5304; G2 XOR 1864 5517 7277; G2 XOR 7277 5331 5543;
  G2 XOR 5517 5331 7275; G2 AND 7276 7275 7274; G2 XOR 7274 5331 5330; G2 XOR 1863 5330 7272;
  G2 XOR 1890 5543 7184; G2 XOR 7184 5356 5568; G2 XOR 5543 5356 7182; G2 AND 7183 7182 7181;
  G2 XOR 7181 5356 5355; G2 XOR 1889 5355 7179; G2 XOR 1915 5568 7095; G2 XOR 7095 5380 5592;
  G2 XOR 5568 5380 7093; G2 AND 7094 7093 7092; G2 XOR 7092 5380 5379; G2 XOR 1914 5379 7090;
  G2 XOR 1939 5592 7010; G2 XOR 7010 5615 5763; G2 XOR 5592 5615 7008; G2 AND 7009 7008 7007;
  G2 XOR 7007 5615 5614; G2 XOR 1938 5614 7005; G2 XOR 5763 5637 6927; G2 XOR 1962 5763 6929;
  G2 XOR 6929 5637 5785; G2 XOR 1984 5785 6852; G2 AND 6928 6927 6926; G2 XOR 6926 5637 5636;
  G2 XOR 1961 5636 6924; G2 XOR 5433 5250 7578; G2 XOR 1988 5789 6868; G2 XOR 1987 5788 6864;
  G2 XOR 1985 5786 6856; G2 XOR 1780 5250 7579; G2 AND 7579 7578 7577; G2 XOR 7577 5250 5249;
  G2 XOR 1779 5249 7575; G2 XOR 5432 5249 7574; G2 XOR 1967 5768 6949; G2 XOR 6949 5642 5790;
  G2 XOR 5790 5663 6870; G2 AND 6871 6870 6869; G2 XOR 1989 5790 6872; G2 XOR 6872 5663 5811;
  G2 XOR 6869 5663 5662; G2 XOR 5789 5662 6866; G2 XOR 6868 5662 5810; G2 XOR 2009 5810 6795;
  G2 XOR 1988 5662 6867; G2 AND 6867 6866 6865; G2 XOR 6865 5662 5661; G2 XOR 6864 5661 5809;
  G2 XOR 1987 5661 6863; G2 XOR 5788 5661 6862; G2 AND 6863 6862 6861; G2 XOR 6861 5661 5660;
  G2 XOR 6860 5660 5808; G2 XOR 1986 5660 6859; G2 XOR 5787 5660 6858; G2 AND 6859 6858 6857;
  G2 XOR 6857 5660 5659; G2 XOR 1985 5659 6855; G2 XOR 6856 5659 5807; G2 XOR 5786 5659 6854;
  G2 AND 6855 6854 6853; G2 XOR 6853 5659 5658; G2 XOR 1984 5658 6851; G2 XOR 6852 5658 5806;
  G2 XOR 5785 5658 6850; G2 AND 6851 6850 6849; G2 XOR 6849 5658 5657; G2 XOR 1983 5657 6847;
  G2 XOR 2008 5809 6791; G2 XOR 2010 5811 6799; G2 XOR 6799 5683 5831; G2 XOR 2030 5831 6730;
  G2 XOR 5811 5683 6797; G2 AND 6798 6797 6796; G2 XOR 6796 5683 5682; G2 XOR 6795 5682 5830;
  G2 XOR 2029 5830 6726; G2 XOR 2009 5682 6794; G2 XOR 5810 5682 6793; G2 AND 6794 6793 6792;
  G2 XOR 6792 5682 5681; G2 XOR 2008 5681 6790; G2 XOR 6791 5681 5829; G2 XOR 2028 5829 6722;
  G2 XOR 5809 5681 6789; G2 AND 6790 6789 6788; G2 XOR 6788 5681 5680; G2 XOR 2007 5808 6787;
  G2 XOR 6787 5680 5828; G2 XOR 2007 5680 6786; G2 XOR 5808 5680 6785; G2 AND 6786 6785 6784;
  G2 XOR 6784 5680 5679; G2 XOR 5807 5679 6781; G2 XOR 2006 5679 6782; G2 AND 6782 6781 6780;
  G2 XOR 6780 5679 5678; G2 XOR 2005 5806 6779; G2 XOR 6779 5678 5826; G2 XOR 2005 5678 6778;
  G2 XOR 5806 5678 6777; G2 AND 6778 6777 6776; G2 XOR 6776 5678 5677; G2 XOR 2004 5677 6774;
  G2 XOR 5831 5702 6728; G2 AND 6729 6728 6727; G2 XOR 6727 5702 5701; G2 XOR 6730 5702 5850;
  G2 XOR 6726 5701 5849; G2 XOR 5830 5701 6724; G2 XOR 2029 5701 6725; G2 AND 6725 6724 6723;
  G2 XOR 6723 5701 5700; G2 XOR 6722 5700 5848; G2 XOR 2028 5700 6721; G2 XOR 2027 5828 6718;
  G2 XOR 5829 5700 6720; G2 AND 6721 6720 6719; G2 XOR 6719 5700 5699; G2 XOR 2027 5699 6717;
  G2 XOR 6718 5699 5847; G2 XOR 2046 5847 6653; G2 XOR 5828 5699 6716; G2 AND 6717 6716 6715;
  G2 XOR 6715 5699 5698; G2 XOR 2026 5698 6713; G2 XOR 2025 5826 6710; G2 XOR 5850 5720 6663;
  G2 AND 6664 6663 6662; G2 XOR 7576 5249 5461; G2 XOR 5461 5277 7469; G2 AND 7470 7469 7468;
  G2 XOR 7468 5277 5276; G2 XOR 1807 5276 7466; G2 XOR 1808 5461 7471; G2 XOR 7471 5277 5489;
  G2 XOR 1836 5489 7370; G2 XOR 7370 5304 5516; G2 XOR 1863 5516 7273; G2 XOR 7273 5330 5542;
  G2 XOR 5516 5330 7271; G2 AND 7272 7271 7270; G2 XOR 7270 5330 5329; G2 XOR 1862 5329 7268;
  G2 XOR 1889 5542 7180; G2 XOR 7180 5355 5567; G2 XOR 5542 5355 7178; G2 AND 7179 7178 7177;
  G2 XOR 7177 5355 5354; G2 XOR 1888 5354 7175; G2 XOR 1914 5567 7091; G2 XOR 7091 5379 5591;
  G2 XOR 5591 5614 7004; G2 XOR 5567 5379 7089; G2 AND 7090 7089 7088; G2 XOR 7088 5379 5378;
  G2 XOR 1913 5378 7086; G2 XOR 1938 5591 7006; G2 XOR 7006 5614 5762; G2 AND 7005 7004 7003;
  G2 XOR 7003 5614 5613; G2 XOR 1937 5613 7001; G2 XOR 5762 5636 6923; G2 XOR 1961 5762 6925;
  G2 XOR 6925 5636 5784; G2 AND 6924 6923 6922; G2 XOR 6922 5636 5635; G2 XOR 1960 5635 6920;
  G2 XOR 1983 5784 6848; G2 XOR 6848 5657 5805; G2 XOR 2004 5805 6775; G2 XOR 5784 5657 6846;
  G2 AND 6847 6846 6845; G2 XOR 6845 5657 5656; G2 XOR 1982 5656 6843; G2 XOR 5489 5304 7368;
  G2 XOR 6775 5677 5825; G2 XOR 5805 5677 6773; G2 AND 6774 6773 6772; G2 XOR 6772 5677 5676;
  G2 XOR 2003 5676 6770; G2 XOR 2024 5825 6706; G2 XOR 2006 5807 6783; G2 XOR 6783 5679 5827;
  G2 XOR 2026 5827 6714; G2 XOR 6714 5698 5846; G2 XOR 5827 5698 6712; G2 AND 6713 6712 6711;
  G2 XOR 6711 5698 5697; G2 XOR 2025 5697 6709; G2 XOR 6710 5697 5845; G2 XOR 5826 5697 6708;
  G2 AND 6709 6708 6707; G2 XOR 6707 5697 5696; G2 XOR 2024 5696 6705; G2 XOR 6706 5696 5844;
  G2 XOR 2043 5844 6641; G2 XOR 5825 5696 6704; G2 AND 6705 6704 6703; G2 XOR 6703 5696 5695;
  G2 XOR 2023 5695 6701; G2 XOR 6662 5720 5719; G2 XOR 2048 5719 6660; G2 XOR 5849 5719 6659;
  G2 XOR 2049 5850 6665; G2 XOR 6665 5720 5868; G2 XOR 5868 5737 6602; G2 AND 6603 6602 6601;
  G2 XOR 6601 5737 5736; G2 XOR 2066 5736 6599; G2 XOR 2048 5849 6661; G2 XOR 6661 5719 5867;
  G2 XOR 5867 5736 6598; G2 AND 6599 6598 6597; G2 XOR 6597 5736 5735; G2 AND 6660 6659 6658;
  G2 XOR 6658 5719 5718; G2 XOR 5848 5718 6655; G2 XOR 2047 5718 6656; G2 AND 6656 6655 6654;
  G2 XOR 6654 5718 5717; G2 XOR 6653 5717 5865; G2 XOR 2046 5717 6652; G2 XOR 5847 5717 6651;
  G2 AND 6652 6651 6650; G2 XOR 6650 5717 5716; G2 XOR 2044 5845 6645; G2 XOR 2045 5846 6649;
  G2 XOR 6649 5716 5864; G2 XOR 2045 5716 6648; G2 XOR 5846 5716 6647; G2 AND 6648 6647 6646;
  G2 XOR 6646 5716 5715; G2 XOR 2044 5715 6644; G2 XOR 6645 5715 5863; G2 XOR 5845 5715 6643;
  G2 AND 6644 6643 6642; G2 XOR 6642 5715 5714; G2 XOR 6641 5714 5862; G2 XOR 2061 5862 6580;
  G2 XOR 2043 5714 6640; G2 XOR 5844 5714 6639; G2 AND 6640 6639 6638; G2 XOR 6638 5714 5713;
  G2 XOR 2042 5713 6636; G2 AND 7575 7574 7573; G2 XOR 7573 5249 5248; G2 XOR 7572 5248 5460;
  G2 XOR 5460 5276 7465; G2 XOR 1778 5248 7571; G2 XOR 5431 5248 7570; G2 AND 7571 7570 7569;
  G2 XOR 7569 5248 5247; G2 XOR 5430 5247 7566; G2 XOR 1777 5247 7567; G2 AND 7567 7566 7565;
  G2 XOR 7565 5247 5246; G2 XOR 1776 5246 7563; G2 XOR 7564 5246 5458; G2 XOR 5429 5246 7562;
  G2 XOR 1805 5458 7459; G2 AND 7563 7562 7561; G2 XOR 7561 5246 5245; G2 XOR 1775 5245 7559;
  G2 XOR 5428 5245 7558; G2 AND 7559 7558 7557; G2 XOR 7557 5245 5244; G2 XOR 1774 5244 7555;
  G2 XOR 7556 5244 5456; G2 XOR 5427 5244 7554; G2 AND 7555 7554 7553; G2 XOR 1803 5456 7451;
  G2 XOR 7553 5244 5243; G2 XOR 1773 5243 7551; G2 XOR 7552 5243 5455; G2 XOR 5426 5243 7550;
  G2 AND 7551 7550 7549; G2 XOR 7549 5243 5242; G2 XOR 7548 5242 5454; G2 XOR 1801 5454 7443;
  G2 XOR 1807 5460 7467; G2 XOR 7467 5276 5488; G2 XOR 1835 5488 7366; G2 XOR 1802 5455 7447;
  G2 AND 7466 7465 7464; G2 XOR 7464 5276 5275; G2 XOR 1806 5275 7462; G2 XOR 2067 5868 6604;
  G2 XOR 6604 5737 5885; G2 XOR 2084 5885 6547; G2 XOR 6547 5753 5901; G2 XOR 5885 5753 6545;
  G2 AND 6546 6545 6544; G2 XOR 2100 5901 6494; G2 XOR 5901 5916 6492; G2 AND 6493 6492 6491;
  G2 XOR 6491 5916 5915; G2 XOR 6544 5753 5752; G2 XOR 2083 5752 6542; G2 XOR 2099 5915 6489;
  G2 XOR 2066 5867 6600; G2 XOR 6600 5736 5884; G2 XOR 2083 5884 6543; G2 XOR 6543 5752 5900;
  G2 XOR 2099 5900 6490; G2 XOR 5884 5752 6541; G2 AND 6542 6541 6540; G2 XOR 5900 5915 6488;
  G2 XOR 6490 5915 5999; G2 XOR 6540 5752 5751; G2 XOR 2082 5751 6538; G2 XOR 2065 5735 6595;
  G2 XOR 2064 5865 6592; G2 XOR 2063 5864 6588; G2 XOR 2062 5863 6584; G2 XOR 2047 5848 6657;
  G2 XOR 6657 5718 5866; G2 XOR 5866 5735 6594; G2 XOR 2065 5866 6596; G2 AND 6595 6594 6593;
  G2 XOR 6593 5735 5734; G2 XOR 2064 5734 6591; G2 XOR 5865 5734 6590; G2 AND 6591 6590 6589;
  G2 XOR 6589 5734 5733; G2 XOR 5864 5733 6586; G2 XOR 2063 5733 6587; G2 AND 6587 6586 6585;
  G2 XOR 6596 5735 5883; G2 XOR 5883 5751 6537; G2 XOR 2082 5883 6539; G2 XOR 6539 5751 5899;
  G2 XOR 2098 5899 6486; G2 AND 6538 6537 6536; G2 XOR 6536 5751 5750; G2 XOR 2081 5750 6534;
  G2 XOR 6592 5734 5882; G2 XOR 2081 5882 6535; G2 XOR 6535 5750 5898; G2 XOR 2097 5898 6482;
  G2 XOR 6585 5733 5732; G2 XOR 2062 5732 6583; G2 XOR 5863 5732 6582; G2 AND 6583 6582 6581;
  G2 XOR 6581 5732 5731; G2 XOR 5862 5731 6578; G2 XOR 6584 5732 5880; G2 XOR 2079 5880 6527;
  G2 XOR 6588 5733 5881; G2 XOR 2080 5881 6531; G2 XOR 6580 5731 5879; G2 XOR 2078 5879 6523;
  G2 XOR 2061 5731 6579; G2 AND 6579 6578 6577; G2 XOR 6577 5731 5730; G2 XOR 2060 5730 6575;
  G2 XOR 5882 5750 6533; G2 AND 6534 6533 6532; G2 XOR 6532 5750 5749; G2 XOR 5881 5749 6529;
  G2 XOR 6531 5749 5897; G2 XOR 2096 5897 6478; G2 XOR 2080 5749 6530; G2 AND 6530 6529 6528;
  G2 XOR 6528 5749 5748; G2 XOR 6527 5748 5896; G2 XOR 2095 5896 6474; G2 XOR 5880 5748 6525;
  G2 XOR 2079 5748 6526; G2 AND 6526 6525 6524; G2 XOR 6524 5748 5747; G2 XOR 6523 5747 5895;
  G2 XOR 2094 5895 6470; G2 XOR 2078 5747 6522; G2 XOR 5879 5747 6521; G2 AND 6522 6521 6520;
  G2 XOR 6520 5747 5746; G2 XOR 2077 5746 6518; G2 XOR 6494 5916 6000; G2 XOR 2115 6000 13789;
  G2 AND 2115 6000 5929; G2 XOR 5999 5929 6439; G2 XOR 2114 5929 6440; G2 AND 6440 6439 6438;
  G2 XOR 6438 5929 5928; G2 XOR 2113 5928 6436; G2 AND 6489 6488 6487; G2 XOR 6487 5915 5914;
  G2 XOR 6486 5914 5998; G2 XOR 2098 5914 6485; G2 XOR 5998 5928 6435; G2 AND 6436 6435 6434;
  G2 XOR 2113 5998 6437; G2 XOR 6434 5928 5927; G2 XOR 2112 5927 6432; G2 XOR 5899 5914 6484;
  G2 XOR 6437 5928 6012; G2 XOR 2127 6012 6392; G2 AND 6485 6484 6483; G2 XOR 6483 5914 5913;
  G2 XOR 6482 5913 5997; G2 XOR 5898 5913 6480; G2 XOR 2097 5913 6481; G2 AND 6481 6480 6479;
  G2 XOR 6479 5913 5912; G2 XOR 5897 5912 6476; G2 XOR 2096 5912 6477; G2 AND 6477 6476 6475;
  G2 XOR 6475 5912 5911; G2 XOR 5896 5911 6472; G2 XOR 6474 5911 5995; G2 XOR 2095 5911 6473;
  G2 AND 6473 6472 6471; G2 XOR 6471 5911 5910; G2 XOR 5895 5910 6468; G2 XOR 6470 5910 5994;
  G2 XOR 2109 5994 6421; G2 XOR 6478 5912 5996; G2 XOR 2111 5996 6429; G2 XOR 2110 5995 6425;
  G2 XOR 5997 5927 6431; G2 AND 6432 6431 6430; G2 XOR 6430 5927 5926; G2 XOR 2111 5926 6428;
  G2 XOR 5996 5926 6427; G2 XOR 6429 5926 6010; G2 XOR 2125 6010 6384; G2 XOR 2112 5997 6433;
  G2 XOR 6433 5927 6011; G2 XOR 2126 6011 6388; G2 XOR 2094 5910 6469; G2 AND 6469 6468 6467;
  G2 XOR 6467 5910 5909; G2 AND 6428 6427 6426; G2 XOR 6426 5926 5925; G2 XOR 5995 5925 6423;
  G2 XOR 2110 5925 6424; G2 AND 6424 6423 6422; G2 XOR 6422 5925 5924; G2 XOR 5994 5924 6419;
  G2 XOR 2109 5924 6420; G2 XOR 6421 5924 6008; G2 XOR 2123 6008 6376; G2 AND 6420 6419 6418;
  G2 XOR 6418 5924 5923; G2 XOR 6425 5925 6009; G2 XOR 2124 6009 6380; G2 XOR 2093 5909 6465;
  G2 XOR 2108 5923 6416; G2 XOR 2114 5999 6441; G2 XOR 6441 5929 6013; G2 XOR 2128 6013 13790;
  G2 AND 2128 6013 5941; G2 XOR 6392 5941 6025; G2 XOR 2140 6025 13791; G2 XOR 2127 5941 6391;
  G2 XOR 6012 5941 6390; G2 AND 6391 6390 6389; G2 XOR 6389 5941 5940; G2 XOR 6011 5940 6386;
  G2 XOR 2126 5940 6387; G2 XOR 6388 5940 6024; G2 XOR 2139 6024 6347; G2 AND 6387 6386 6385;
  G2 XOR 6385 5940 5939; G2 XOR 6010 5939 6382; G2 XOR 2125 5939 6383; G2 XOR 6384 5939 6023;
  G2 XOR 2138 6023 6343; G2 AND 6383 6382 6381; G2 XOR 6381 5939 5938; G2 XOR 2124 5938 6379;
  G2 XOR 6009 5938 6378; G2 AND 6379 6378 6377; G2 XOR 6377 5938 5937; G2 XOR 6376 5937 6021;
  G2 XOR 2123 5937 6375; G2 XOR 6008 5937 6374; G2 AND 6375 6374 6373; G2 XOR 2136 6021 6335;
  G2 AND 2140 6025 5952; G2 XOR 6347 5952 6036; G2 XOR 2151 6036 13792; G2 AND 2151 6036 5962;
  G2 XOR 2150 5962 6305; G2 XOR 6024 5952 6345; G2 XOR 6380 5938 6022; G2 XOR 2137 6022 6339;
  G2 XOR 6373 5937 5936; G2 XOR 2122 5936 6371; G2 XOR 2139 5952 6346; G2 AND 6346 6345 6344;
  G2 XOR 6344 5952 5951; G2 XOR 2138 5951 6342; G2 XOR 6023 5951 6341; G2 AND 6342 6341 6340;
  G2 XOR 6340 5951 5950; G2 XOR 6022 5950 6337; G2 XOR 6339 5950 6034; G2 XOR 2149 6034 6302;
  G2 XOR 2137 5950 6338; G2 AND 6338 6337 6336; G2 XOR 6336 5950 5949; G2 XOR 6021 5949 6333;
  G2 XOR 2136 5949 6334; G2 AND 6334 6333 6332; G2 XOR 6332 5949 5948; G2 XOR 2135 5948 6330;
  G2 XOR 6335 5949 6033; G2 XOR 2148 6033 6298; G2 XOR 6343 5951 6035; G2 XOR 2150 6035 6306;
  G2 XOR 6306 5962 6046; G2 AND 2161 6046 5971; G2 XOR 2160 5971 6268; G2 XOR 2161 6046 13793;
  G2 XOR 6035 5962 6304; G2 AND 6305 6304 6303; G2 XOR 6303 5962 5961; G2 XOR 2149 5961 6301;
  G2 XOR 6034 5961 6300; G2 AND 6301 6300 6299; G2 XOR 6299 5961 5960; G2 XOR 6298 5960 6044;
  G2 XOR 2159 6044 6265; G2 XOR 6033 5960 6296; G2 XOR 6302 5961 6045; G2 XOR 2160 6045 6269;
  G2 XOR 6269 5971 6055; G2 XOR 2170 6055 13794; G2 XOR 6045 5971 6267; G2 AND 6268 6267 6266;
  G2 XOR 6266 5971 5970; G2 XOR 2159 5970 6264; G2 XOR 6044 5970 6263; G2 XOR 6265 5970 6054;
  G2 XOR 2169 6054 6236; G2 AND 6264 6263 6262; G2 XOR 6262 5970 5969; G2 XOR 2158 5969 6260;
  G2 AND 2170 6055 5979; G2 XOR 6236 5979 6063; G2 XOR 2178 6063 13795; G2 XOR 6054 5979 6234;
  G2 XOR 2169 5979 6235; G2 AND 6235 6234 6233; G2 XOR 6233 5979 5978; G2 XOR 2168 5978 6231;
  G2 AND 2178 6063 5986; G2 XOR 2177 5986 6206; G2 XOR 2148 5960 6297; G2 AND 6297 6296 6295;
  G2 XOR 6295 5960 5959; G2 XOR 2147 5959 6293; G2 XOR 7560 5245 5457; G2 XOR 1804 5457 7455;
  G2 XOR 7568 5247 5459; G2 XOR 1806 5459 7463; G2 XOR 7463 5275 5487; G2 XOR 1834 5487 7362;
  G2 XOR 5459 5275 7461; G2 AND 7462 7461 7460; G2 XOR 7460 5275 5274; G2 XOR 5458 5274 7457;
  G2 XOR 1805 5274 7458; G2 AND 7458 7457 7456; G2 XOR 7456 5274 5273; G2 XOR 7455 5273 5485;
  G2 XOR 1804 5273 7454; G2 XOR 5457 5273 7453; G2 AND 7454 7453 7452; G2 XOR 7452 5273 5272;
  G2 XOR 7451 5272 5484; G2 XOR 7459 5274 5486; G2 XOR 1833 5486 7358; G2 XOR 1832 5485 7354;
  G2 XOR 1831 5484 7350; G2 XOR 5456 5272 7449; G2 XOR 1803 5272 7450; G2 AND 7450 7449 7448;
  G2 XOR 7448 5272 5271; G2 XOR 1802 5271 7446; G2 XOR 7447 5271 5483; G2 XOR 1830 5483 7346;
  G2 XOR 5455 5271 7445; G2 AND 7446 7445 7444; G2 XOR 7444 5271 5270; G2 XOR 7443 5270 5482;
  G2 XOR 1829 5482 7342; G2 XOR 1836 5304 7369; G2 AND 7369 7368 7367; G2 XOR 7367 5304 5303;
  G2 XOR 7366 5303 5515; G2 XOR 1835 5303 7365; G2 XOR 5488 5303 7364; G2 AND 7365 7364 7363;
  G2 XOR 7363 5303 5302; G2 XOR 1834 5302 7361; G2 XOR 1862 5515 7269; G2 XOR 7269 5329 5541;
  G2 XOR 1888 5541 7176; G2 XOR 7176 5354 5566; G2 XOR 1913 5566 7087; G2 XOR 7087 5378 5590;
  G2 XOR 5566 5378 7085; G2 AND 7086 7085 7084; G2 XOR 7084 5378 5377; G2 XOR 1912 5377 7082;
  G2 XOR 1937 5590 7002; G2 XOR 5590 5613 7000; G2 AND 7001 7000 6999; G2 XOR 6999 5613 5612;
  G2 XOR 7002 5613 5761; G2 XOR 1936 5612 6997; G2 XOR 5761 5635 6919; G2 XOR 1960 5761 6921;
  G2 XOR 6921 5635 5783; G2 AND 6920 6919 6918; G2 XOR 6918 5635 5634; G2 XOR 1959 5634 6916;
  G2 XOR 1982 5783 6844; G2 XOR 6844 5656 5804; G2 XOR 5783 5656 6842; G2 AND 6843 6842 6841;
  G2 XOR 6841 5656 5655; G2 XOR 1981 5655 6839; G2 XOR 2003 5804 6771; G2 XOR 5804 5676 6769;
  G2 XOR 6771 5676 5824; G2 AND 6770 6769 6768; G2 XOR 6768 5676 5675; G2 XOR 2002 5675 6766;
  G2 XOR 5824 5695 6700; G2 AND 6701 6700 6699; G2 XOR 6699 5695 5694; G2 XOR 2022 5694 6697;
  G2 XOR 5541 5354 7174; G2 AND 7175 7174 7173; G2 XOR 7173 5354 5353; G2 XOR 1887 5353 7171;
  G2 XOR 5515 5329 7267; G2 AND 7268 7267 7266; G2 XOR 7266 5329 5328; G2 XOR 5487 5302 7360;
  G2 AND 7361 7360 7359; G2 XOR 7359 5302 5301; G2 XOR 5486 5301 7356; G2 XOR 1833 5301 7357;
  G2 XOR 7358 5301 5513; G2 XOR 1860 5513 7261; G2 AND 7357 7356 7355; G2 XOR 7355 5301 5300;
  G2 XOR 7354 5300 5512; G2 XOR 5485 5300 7352; G2 XOR 1832 5300 7353; G2 AND 7353 7352 7351;
  G2 XOR 7351 5300 5299; G2 XOR 1831 5299 7349; G2 XOR 5484 5299 7348; G2 XOR 7350 5299 5511;
  G2 XOR 1858 5511 7253; G2 XOR 1859 5512 7257; G2 AND 7349 7348 7347; G2 XOR 7347 5299 5298;
  G2 XOR 5483 5298 7344; G2 XOR 1830 5298 7345; G2 AND 7345 7344 7343; G2 XOR 7343 5298 5297;
  G2 XOR 7342 5297 5509; G2 XOR 1856 5509 7245; G2 XOR 7346 5298 5510; G2 XOR 1857 5510 7249;
  G2 XOR 7362 5302 5514; G2 XOR 5514 5328 7263; G2 XOR 1861 5514 7265; G2 XOR 7265 5328 5540;
  G2 XOR 1887 5540 7172; G2 XOR 7172 5353 5565; G2 XOR 1912 5565 7083; G2 XOR 7083 5377 5589;
  G2 XOR 5565 5377 7081; G2 AND 7082 7081 7080; G2 XOR 7080 5377 5376; G2 XOR 1911 5376 7078;
  G2 XOR 1936 5589 6998; G2 XOR 5589 5612 6996; G2 AND 6997 6996 6995; G2 XOR 6995 5612 5611;
  G2 XOR 1935 5611 6993; G2 XOR 6998 5612 5760; G2 XOR 1959 5760 6917; G2 XOR 6917 5634 5782;
  G2 XOR 5760 5634 6915; G2 AND 6916 6915 6914; G2 XOR 6914 5634 5633; G2 XOR 1958 5633 6912;
  G2 XOR 1981 5782 6840; G2 XOR 5782 5655 6838; G2 AND 6839 6838 6837; G2 XOR 6837 5655 5654;
  G2 XOR 1980 5654 6835; G2 XOR 5540 5353 7170; G2 AND 7171 7170 7169; G2 XOR 7169 5353 5352;
  G2 XOR 1886 5352 7167; G2 XOR 6840 5655 5803; G2 XOR 2002 5803 6767; G2 XOR 6767 5675 5823;
  G2 XOR 5823 5694 6696; G2 XOR 5803 5675 6765; G2 AND 6766 6765 6764; G2 XOR 6764 5675 5674;
  G2 XOR 2001 5674 6762; G2 AND 6697 6696 6695; G2 XOR 6695 5694 5693; G2 XOR 2022 5823 6698;
  G2 XOR 6698 5694 5842; G2 XOR 2021 5693 6693; G2 XOR 2041 5842 6633; G2 XOR 1861 5328 7264;
  G2 AND 7264 7263 7262; G2 XOR 7262 5328 5327; G2 XOR 7261 5327 5539; G2 XOR 1886 5539 7168;
  G2 XOR 7168 5352 5564; G2 XOR 1911 5564 7079; G2 XOR 5564 5376 7077; G2 XOR 7079 5376 5588;
  G2 XOR 5588 5611 6992; G2 AND 6993 6992 6991; G2 XOR 6991 5611 5610; G2 XOR 1935 5588 6994;
  G2 XOR 6994 5611 5759; G2 XOR 1934 5610 6989; G2 XOR 1958 5759 6913; G2 XOR 6913 5633 5781;
  G2 XOR 5759 5633 6911; G2 AND 6912 6911 6910; G2 XOR 6910 5633 5632; G2 XOR 1980 5781 6836;
  G2 XOR 6836 5654 5802; G2 XOR 2001 5802 6763; G2 XOR 6763 5674 5822; G2 XOR 5781 5654 6834;
  G2 AND 6835 6834 6833; G2 XOR 6833 5654 5653; G2 XOR 1979 5653 6831; G2 XOR 1957 5632 6908;
  G2 XOR 2021 5822 6694; G2 XOR 6694 5693 5841; G2 XOR 5822 5693 6692; G2 AND 6693 6692 6691;
  G2 XOR 6691 5693 5692; G2 XOR 2020 5692 6689; G2 AND 7078 7077 7076; G2 XOR 7076 5376 5375;
  G2 XOR 1910 5375 7074; G2 XOR 2040 5841 6629; G2 XOR 5539 5352 7166; G2 AND 7167 7166 7165;
  G2 XOR 7165 5352 5351; G2 XOR 1885 5351 7163; G2 XOR 5802 5674 6761; G2 AND 6762 6761 6760;
  G2 XOR 6760 5674 5673; G2 XOR 2000 5673 6758; G2 XOR 1860 5327 7260; G2 XOR 5513 5327 7259;
  G2 AND 7260 7259 7258; G2 XOR 7258 5327 5326; G2 XOR 5512 5326 7255; G2 XOR 1859 5326 7256;
  G2 XOR 7257 5326 5538; G2 XOR 5538 5351 7162; G2 AND 7163 7162 7161; G2 XOR 1885 5538 7164;
  G2 XOR 7164 5351 5563; G2 XOR 1910 5563 7075; G2 XOR 7075 5375 5587; G2 XOR 1934 5587 6990;
  G2 XOR 6990 5610 5758; G2 XOR 5563 5375 7073; G2 XOR 5587 5610 6988; G2 AND 6989 6988 6987;
  G2 XOR 6987 5610 5609; G2 XOR 1933 5609 6985; G2 XOR 1957 5758 6909; G2 XOR 6909 5632 5780;
  G2 XOR 5758 5632 6907; G2 AND 6908 6907 6906; G2 XOR 6906 5632 5631; G2 XOR 1956 5631 6904;
  G2 XOR 5780 5653 6830; G2 AND 6831 6830 6829; G2 XOR 6829 5653 5652; G2 XOR 1978 5652 6827;
  G2 XOR 1979 5780 6832; G2 XOR 6832 5653 5801; G2 AND 7074 7073 7072; G2 XOR 7072 5375 5374;
  G2 XOR 1909 5374 7070; G2 XOR 5801 5673 6757; G2 XOR 2000 5801 6759; G2 XOR 6759 5673 5821;
  G2 XOR 5821 5692 6688; G2 AND 6689 6688 6687; G2 AND 6758 6757 6756; G2 XOR 6756 5673 5672;
  G2 XOR 2020 5821 6690; G2 XOR 6687 5692 5691; G2 XOR 6690 5692 5840; G2 XOR 2019 5691 6685;
  G2 XOR 1999 5672 6754; G2 AND 7256 7255 7254; G2 XOR 7254 5326 5325; G2 XOR 5511 5325 7251;
  G2 XOR 7253 5325 5537; G2 XOR 1884 5537 7160; G2 XOR 1858 5325 7252; G2 XOR 2039 5840 6625;
  G2 XOR 7161 5351 5350; G2 XOR 5537 5350 7158; G2 XOR 7160 5350 5562; G2 XOR 1909 5562 7071;
  G2 XOR 7071 5374 5586; G2 XOR 5586 5609 6984; G2 XOR 1933 5586 6986; G2 XOR 6986 5609 5757;
  G2 AND 6985 6984 6983; G2 XOR 6983 5609 5608; G2 XOR 1932 5608 6981; G2 XOR 1956 5757 6905;
  G2 XOR 5757 5631 6903; G2 XOR 6905 5631 5779; G2 AND 6904 6903 6902; G2 XOR 6902 5631 5630;
  G2 XOR 1955 5630 6900; G2 XOR 5562 5374 7069; G2 AND 7070 7069 7068; G2 XOR 7068 5374 5373;
  G2 XOR 1908 5373 7066; G2 XOR 1978 5779 6828; G2 XOR 6828 5652 5800; G2 XOR 5800 5672 6753;
  G2 AND 6754 6753 6752; G2 XOR 6752 5672 5671; G2 XOR 5779 5652 6826; G2 AND 6827 6826 6825;
  G2 XOR 6825 5652 5651; G2 XOR 1977 5651 6823; G2 XOR 1998 5671 6750; G2 XOR 1884 5350 7159;
  G2 AND 7159 7158 7157; G2 XOR 7157 5350 5349; G2 XOR 1999 5800 6755; G2 XOR 6755 5672 5820;
  G2 XOR 2019 5820 6686; G2 XOR 5820 5691 6684; G2 AND 6685 6684 6683; G2 XOR 6686 5691 5839;
  G2 XOR 6683 5691 5690; G2 XOR 2018 5690 6681; G2 XOR 1883 5349 7155; G2 XOR 2038 5839 6621;
  G2 AND 7252 7251 7250; G2 XOR 7250 5325 5324; G2 XOR 7249 5324 5536; G2 XOR 1883 5536 7156;
  G2 XOR 5536 5349 7154; G2 AND 7155 7154 7153; G2 XOR 7153 5349 5348; G2 XOR 7156 5349 5561;
  G2 XOR 1908 5561 7067; G2 XOR 7067 5373 5585; G2 XOR 1932 5585 6982; G2 XOR 5585 5608 6980;
  G2 AND 6981 6980 6979; G2 XOR 6979 5608 5607; G2 XOR 5561 5373 7065; G2 AND 7066 7065 7064;
  G2 XOR 7064 5373 5372; G2 XOR 1857 5324 7248; G2 XOR 6982 5608 5756; G2 XOR 5756 5630 6899;
  G2 AND 6900 6899 6898; G2 XOR 6898 5630 5629; G2 XOR 1955 5756 6901; G2 XOR 6901 5630 5778;
  G2 XOR 1977 5778 6824; G2 XOR 6824 5651 5799; G2 XOR 5778 5651 6822; G2 AND 6823 6822 6821;
  G2 XOR 1998 5799 6751; G2 XOR 6751 5671 5819; G2 XOR 5799 5671 6749; G2 AND 6750 6749 6748;
  G2 XOR 6748 5671 5670; G2 XOR 2018 5819 6682; G2 XOR 6682 5690 5838; G2 XOR 5510 5324 7247;
  G2 AND 7248 7247 7246; G2 XOR 7246 5324 5323; G2 XOR 7245 5323 5535; G2 XOR 1882 5535 7152;
  G2 XOR 7152 5348 5560; G2 XOR 1907 5560 7063; G2 XOR 7063 5372 5584; G2 XOR 1931 5584 6978;
  G2 XOR 6978 5607 5755; G2 XOR 1954 5755 6897; G2 XOR 6897 5629 5777; G2 XOR 1976 5777 6820;
  G2 XOR 6821 5651 5650; G2 XOR 6820 5650 5798; G2 XOR 1997 5798 6747; G2 XOR 6747 5670 5818;
  G2 XOR 2037 5838 6617; G2 XOR 5819 5690 6680; G2 AND 6681 6680 6679; G2 XOR 6679 5690 5689;
  G2 XOR 2017 5818 6678; G2 XOR 6678 5689 5837; G2 XOR 2036 5837 6613; G2 XOR 2023 5824 6702;
  G2 XOR 6702 5695 5843; G2 XOR 5843 5713 6635; G2 AND 6636 6635 6634; G2 XOR 6634 5713 5712;
  G2 XOR 5842 5712 6631; G2 XOR 6633 5712 5860; G2 XOR 2041 5712 6632; G2 AND 6632 6631 6630;
  G2 XOR 6630 5712 5711; G2 XOR 2040 5711 6628; G2 XOR 6629 5711 5859; G2 XOR 5841 5711 6627;
  G2 AND 6628 6627 6626; G2 XOR 6626 5711 5710; G2 XOR 2039 5710 6624; G2 XOR 6625 5710 5858;
  G2 XOR 2057 5858 6564; G2 XOR 5840 5710 6623; G2 XOR 2058 5859 6568; G2 AND 6624 6623 6622;
  G2 XOR 6622 5710 5709; G2 XOR 5839 5709 6619; G2 XOR 6621 5709 5857; G2 XOR 2056 5857 6560;
  G2 XOR 2038 5709 6620; G2 AND 6620 6619 6618; G2 XOR 6618 5709 5708; G2 XOR 2037 5708 6616;
  G2 XOR 5838 5708 6615; G2 AND 6616 6615 6614; G2 XOR 6614 5708 5707; G2 XOR 6613 5707 5855;
  G2 XOR 2054 5855 6552; G2 XOR 2042 5843 6637; G2 XOR 6637 5713 5861; G2 XOR 5861 5730 6574;
  G2 AND 6575 6574 6573; G2 XOR 6573 5730 5729; G2 XOR 2059 5729 6571; G2 XOR 5860 5729 6570;
  G2 XOR 2060 5861 6576; G2 XOR 6576 5730 5878; G2 XOR 2077 5878 6519; G2 XOR 6519 5746 5894;
  G2 XOR 2093 5894 6466; G2 XOR 5894 5909 6464; G2 AND 6465 6464 6463; G2 XOR 6463 5909 5908;
  G2 XOR 2092 5908 6461; G2 XOR 6466 5909 5993; G2 XOR 2108 5993 6417; G2 XOR 6417 5923 6007;
  G2 XOR 6007 5936 6370; G2 AND 6371 6370 6369; G2 XOR 5993 5923 6415; G2 AND 6416 6415 6414;
  G2 XOR 6414 5923 5922; G2 XOR 2107 5922 6412; G2 XOR 2059 5860 6572; G2 XOR 6572 5729 5877;
  G2 XOR 2076 5877 6515; G2 AND 6571 6570 6569; G2 XOR 6569 5729 5728; G2 XOR 6568 5728 5876;
  G2 XOR 2058 5728 6567; G2 XOR 2075 5876 6511; G2 XOR 5859 5728 6566; G2 AND 6567 6566 6565;
  G2 XOR 6565 5728 5727; G2 XOR 2057 5727 6563; G2 XOR 6564 5727 5875; G2 XOR 2074 5875 6507;
  G2 XOR 5858 5727 6562; G2 AND 6563 6562 6561; G2 XOR 6561 5727 5726; G2 XOR 5857 5726 6558;
  G2 XOR 6560 5726 5874; G2 XOR 2073 5874 6503; G2 XOR 2056 5726 6559; G2 AND 6559 6558 6557;
  G2 XOR 6557 5726 5725; G2 XOR 2055 5725 6555; G2 XOR 6617 5708 5856; G2 XOR 5856 5725 6554;
  G2 XOR 2055 5856 6556; G2 XOR 6556 5725 5873; G2 XOR 2072 5873 6499; G2 AND 6555 6554 6553;
  G2 XOR 6553 5725 5724; G2 XOR 6552 5724 5872; G2 XOR 2071 5872 6495; G2 XOR 5878 5746 6517;
  G2 AND 6518 6517 6516; G2 XOR 6516 5746 5745; G2 XOR 2076 5745 6514; G2 XOR 6515 5745 5893;
  G2 XOR 5893 5908 6460; G2 AND 6461 6460 6459; G2 XOR 6459 5908 5907; G2 XOR 2091 5907 6457;
  G2 XOR 2092 5893 6462; G2 XOR 6462 5908 5992; G2 XOR 2107 5992 6413; G2 XOR 5992 5922 6411;
  G2 AND 6412 6411 6410; G2 XOR 6410 5922 5921; G2 XOR 2106 5921 6408; G2 XOR 6413 5922 6006;
  G2 XOR 5877 5745 6513; G2 XOR 2121 6006 6368; G2 AND 6514 6513 6512; G2 XOR 6512 5745 5744;
  G2 XOR 2075 5744 6510; G2 XOR 6511 5744 5892; G2 XOR 2091 5892 6458; G2 XOR 6458 5907 5991;
  G2 XOR 2106 5991 6409; G2 XOR 5892 5907 6456; G2 AND 6457 6456 6455; G2 XOR 6455 5907 5906;
  G2 XOR 2090 5906 6453; G2 XOR 6409 5921 6005; G2 XOR 2120 6005 6364; G2 XOR 5876 5744 6509;
  G2 AND 6510 6509 6508; G2 XOR 6508 5744 5743; G2 XOR 6507 5743 5891; G2 XOR 5891 5906 6452;
  G2 XOR 2090 5891 6454; G2 XOR 6454 5906 5990; G2 AND 6453 6452 6451; G2 XOR 2105 5990 6405;
  G2 XOR 6451 5906 5905; G2 XOR 2074 5743 6506; G2 XOR 5875 5743 6505; G2 AND 6506 6505 6504;
  G2 XOR 6504 5743 5742; G2 XOR 6503 5742 5890; G2 XOR 2073 5742 6502; G2 XOR 5874 5742 6501;
  G2 XOR 5890 5905 6448; G2 XOR 2089 5890 6450; G2 XOR 6450 5905 5989; G2 XOR 2104 5989 6401;
  G2 AND 6502 6501 6500; G2 XOR 2089 5905 6449; G2 AND 6449 6448 6447; G2 XOR 6447 5905 5904;
  G2 XOR 2088 5904 6445; G2 XOR 6500 5742 5741; G2 XOR 6499 5741 5889; G2 XOR 2072 5741 6498;
  G2 XOR 5889 5904 6444; G2 XOR 5873 5741 6497; G2 AND 6498 6497 6496; G2 AND 6445 6444 6443;
  G2 XOR 6496 5741 5740; G2 XOR 6495 5740 5888; G2 XOR 2087 5888 6442; G2 XOR 6443 5904 5903;
  G2 XOR 6442 5903 5987; G2 XOR 2102 5987 6393; G2 XOR 5991 5921 6407; G2 AND 6408 6407 6406;
  G2 XOR 6406 5921 5920; G2 XOR 6405 5920 6004; G2 XOR 2105 5920 6404; G2 XOR 2119 6004 6360;
  G2 XOR 5990 5920 6403; G2 AND 6404 6403 6402; G2 XOR 6402 5920 5919; G2 XOR 5989 5919 6399;
  G2 XOR 2104 5919 6400; G2 XOR 6401 5919 6003; G2 XOR 2118 6003 6356; G2 AND 6400 6399 6398;
  G2 XOR 6398 5919 5918; G2 XOR 2103 5918 6396; G2 XOR 2088 5889 6446; G2 XOR 6369 5936 5935;
  G2 XOR 2121 5935 6367; G2 XOR 6006 5935 6366; G2 AND 6367 6366 6365; G2 XOR 6365 5935 5934;
  G2 XOR 6005 5934 6362; G2 XOR 2120 5934 6363; G2 AND 6363 6362 6361; G2 XOR 6361 5934 5933;
  G2 XOR 6004 5933 6358; G2 XOR 6360 5933 6017; G2 XOR 2132 6017 6319; G2 XOR 6364 5934 6018;
  G2 XOR 2133 6018 6323; G2 XOR 2119 5933 6359; G2 AND 6359 6358 6357; G2 XOR 6357 5933 5932;
  G2 XOR 6003 5932 6354; G2 XOR 2118 5932 6355; G2 AND 6355 6354 6353; G2 XOR 6353 5932 5931;
  G2 XOR 6356 5932 6016; G2 XOR 2117 5931 6351; G2 XOR 6368 5935 6019; G2 XOR 2134 6019 6327;
  G2 XOR 2131 6016 6315; G2 XOR 2122 6007 6372; G2 XOR 6372 5936 6020; G2 XOR 2135 6020 6331;
  G2 XOR 6331 5948 6032; G2 XOR 2147 6032 6294; G2 XOR 6020 5948 6329; G2 XOR 6294 5959 6043;
  G2 XOR 6043 5969 6259; G2 AND 6260 6259 6258; G2 XOR 6258 5969 5968; G2 XOR 6032 5959 6292;
  G2 AND 6293 6292 6291; G2 XOR 6291 5959 5958; G2 XOR 2146 5958 6289; G2 XOR 2158 6043 6261;
  G2 XOR 6261 5969 6053; G2 XOR 6053 5978 6230; G2 AND 6231 6230 6229; G2 XOR 6229 5978 5977;
  G2 XOR 2168 6053 6232; G2 XOR 6232 5978 6062; G2 XOR 2177 6062 6207; G2 XOR 6207 5986 6070;
  G2 AND 2185 6070 6076; G2 XOR 2185 6070 13796; G2 XOR 2184 6076 6181; G2 XOR 2157 5968 6256;
  G2 XOR 6062 5986 6205; G2 AND 6206 6205 6204; G2 XOR 6204 5986 5985; G2 XOR 2176 5985 6202;
  G2 AND 6330 6329 6328; G2 XOR 6328 5948 5947; G2 XOR 6327 5947 6031; G2 XOR 6019 5947 6325;
  G2 XOR 2146 6031 6290; G2 XOR 6290 5958 6042; G2 XOR 2157 6042 6257; G2 XOR 6042 5968 6255;
  G2 AND 6256 6255 6254; G2 XOR 6254 5968 5967; G2 XOR 6257 5968 6052; G2 XOR 6052 5977 6226;
  G2 XOR 2167 6052 6228; G2 XOR 2134 5947 6326; G2 AND 6326 6325 6324; G2 XOR 6324 5947 5946;
  G2 XOR 2133 5946 6322; G2 XOR 6323 5946 6030; G2 XOR 2145 6030 6286; G2 XOR 2156 5967 6252;
  G2 XOR 6031 5958 6288; G2 AND 6289 6288 6287; G2 XOR 6287 5958 5957; G2 XOR 6286 5957 6041;
  G2 XOR 6041 5967 6251; G2 XOR 2145 5957 6285; G2 XOR 2156 6041 6253; G2 XOR 6030 5957 6284;
  G2 AND 6285 6284 6283; G2 XOR 6283 5957 5956; G2 XOR 2144 5956 6281; G2 XOR 6253 5967 6051;
  G2 XOR 2166 6051 6224; G2 AND 6252 6251 6250; G2 XOR 6250 5967 5966; G2 XOR 2155 5966 6248;
  G2 XOR 6018 5946 6321; G2 AND 6322 6321 6320; G2 XOR 6320 5946 5945; G2 XOR 6017 5945 6317;
  G2 XOR 6319 5945 6029; G2 XOR 2144 6029 6282; G2 XOR 6282 5956 6040; G2 XOR 6040 5966 6247;
  G2 XOR 2155 6040 6249; G2 AND 6248 6247 6246; G2 XOR 2132 5945 6318; G2 AND 6318 6317 6316;
  G2 XOR 6246 5966 5965; G2 XOR 6249 5966 6050; G2 XOR 2154 5965 6244; G2 XOR 2165 6050 6220;
  G2 XOR 6316 5945 5944; G2 XOR 6315 5944 6028; G2 XOR 2143 6028 6278; G2 XOR 2131 5944 6314;
  G2 XOR 6016 5944 6313; G2 AND 6314 6313 6312; G2 XOR 6312 5944 5943; G2 XOR 2130 5943 6310;
  G2 XOR 6029 5956 6280; G2 AND 6281 6280 6279; G2 XOR 6279 5956 5955; G2 XOR 6028 5955 6276;
  G2 XOR 6278 5955 6039; G2 XOR 2154 6039 6245; G2 XOR 6039 5965 6243; G2 AND 6244 6243 6242;
  G2 XOR 2143 5955 6277; G2 AND 6277 6276 6275; G2 XOR 6275 5955 5954; G2 XOR 2142 5954 6273;
  G2 XOR 6242 5965 5964; G2 XOR 2153 5964 6240; G2 XOR 6245 5965 6049; G2 XOR 2164 6049 6216;
  G2 XOR 6228 5977 6061; G2 XOR 6061 5985 6201; G2 AND 6202 6201 6200; G2 XOR 6200 5985 5984;
  G2 XOR 2176 6061 6203; G2 XOR 6203 5985 6069; G2 XOR 6069 6076 6180; G2 AND 6181 6180 6179;
  G2 XOR 2184 6069 6182; G2 XOR 6182 6076 6097; G2 XOR 2175 5984 6198; G2 XOR 6179 6076 6075;
  G2 XOR 2183 6075 6177; G2 AND 2191 6097 6081; G2 XOR 2190 6081 6160; G2 XOR 2167 5977 6227;
  G2 AND 6227 6226 6225; G2 XOR 6225 5977 5976; G2 XOR 6224 5976 6060; G2 XOR 6051 5976 6222;
  G2 XOR 6060 5984 6197; G2 AND 6198 6197 6196; G2 XOR 2175 6060 6199; G2 XOR 2166 5976 6223;
  G2 AND 6223 6222 6221; G2 XOR 6199 5984 6068; G2 XOR 6068 6075 6176; G2 AND 6177 6176 6175;
  G2 XOR 2183 6068 6178; G2 XOR 6178 6075 6096; G2 XOR 6096 6081 6159; G2 XOR 2190 6096 6161;
  G2 XOR 6161 6081 6102; G2 XOR 2196 6102 13798; G2 AND 6160 6159 6158; G2 AND 2196 6102 6085;
  G2 XOR 2195 6085 6143; G2 XOR 6221 5976 5975; G2 XOR 6050 5975 6218; G2 XOR 6220 5975 6059;
  G2 XOR 6196 5984 5983; G2 XOR 6059 5983 6193; G2 XOR 2174 6059 6195; G2 XOR 6175 6075 6074;
  G2 XOR 2182 6074 6173; G2 XOR 6195 5983 6067; G2 XOR 2182 6067 6174; G2 XOR 6174 6074 6095;
  G2 XOR 6067 6074 6172; G2 AND 6173 6172 6171; G2 XOR 2189 6095 6157; G2 XOR 6158 6081 6080;
  G2 XOR 6095 6080 6155; G2 XOR 2189 6080 6156; G2 XOR 2174 5983 6194; G2 AND 6194 6193 6192;
  G2 XOR 6157 6080 6101; G2 XOR 6101 6085 6142; G2 AND 6143 6142 6141; G2 XOR 6141 6085 6084;
  G2 XOR 2194 6084 6139; G2 XOR 6192 5983 5982; G2 XOR 2173 5982 6190; G2 XOR 2165 5975 6219;
  G2 AND 6219 6218 6217; G2 XOR 6217 5975 5974; G2 XOR 6216 5974 6058; G2 XOR 2173 6058 6191;
  G2 XOR 2164 5974 6215; G2 XOR 6049 5974 6214; G2 XOR 6191 5982 6066; G2 AND 6215 6214 6213;
  G2 XOR 6058 5982 6189; G2 AND 6190 6189 6188; G2 XOR 6188 5982 5981; G2 XOR 6213 5974 5973;
  G2 XOR 2163 5973 6211; G2 XOR 2172 5981 6186; G2 XOR 2181 6066 6170; G2 AND 6156 6155 6154;
  G2 XOR 6154 6080 6079; G2 XOR 2188 6079 6152; G2 XOR 6171 6074 6073; G2 XOR 6066 6073 6168;
  G2 XOR 2181 6073 6169; G2 AND 6169 6168 6167; G2 XOR 6167 6073 6072; G2 XOR 2180 6072 6165;
  G2 XOR 6170 6073 6094; G2 XOR 6094 6079 6151; G2 XOR 2188 6094 6153; G2 XOR 6153 6079 6100;
  G2 XOR 2194 6100 6140; G2 XOR 6100 6084 6138; G2 AND 6152 6151 6150; G2 XOR 6150 6079 6078;
  G2 XOR 2187 6078 6148; G2 AND 6139 6138 6137; G2 XOR 6137 6084 6083; G2 XOR 2193 6083 6135;
  G2 XOR 6140 6084 6105; G2 XOR 2199 6105 6131; G2 XOR 2195 6101 6144; G2 XOR 6144 6085 6106;
  G2 XOR 2200 6106 13799; G2 AND 2200 6106 6088; G2 XOR 6131 6088 6109; G2 XOR 2199 6088 6130;
  G2 AND 2203 6109 6090; G2 XOR 2202 6090 6121; G2 XOR 2203 6109 13800; G2 XOR 6105 6088 6129;
  G2 AND 6130 6129 6128; G2 XOR 6128 6088 6087; G2 XOR 2198 6087 6126; G2 XOR 2191 6097 13797;
  G2 XOR 6446 5904 5988; G2 XOR 5988 5918 6395; G2 XOR 2103 5988 6397; G2 XOR 6397 5918 6002;
  G2 XOR 6002 5931 6350; G2 XOR 2117 6002 6352; G2 AND 6351 6350 6349; G2 XOR 6349 5931 5930;
  G2 XOR 6352 5931 6015; G2 XOR 2130 6015 6311; G2 XOR 6311 5943 6027; G2 XOR 6015 5943 6309;
  G2 XOR 6027 5954 6272; G2 AND 6310 6309 6308; G2 XOR 6308 5943 5942; G2 XOR 2142 6027 6274;
  G2 XOR 6274 5954 6038; G2 XOR 2153 6038 6241; G2 XOR 6038 5964 6239; G2 XOR 6241 5964 6048;
  G2 XOR 2163 6048 6212; G2 XOR 6048 5973 6210; G2 AND 6240 6239 6238; G2 XOR 6238 5964 5963;
  G2 AND 6211 6210 6209; G2 XOR 6209 5973 5972; G2 AND 6396 6395 6394; G2 XOR 6394 5918 5917;
  G2 XOR 6393 5917 6001; G2 XOR 2116 6001 6348; G2 XOR 6348 5930 6014; G2 XOR 2129 6014 6307;
  G2 XOR 6307 5942 6026; G2 XOR 2141 6026 6270; G2 XOR 6212 5973 6057; G2 XOR 2172 6057 6187;
  G2 XOR 6187 5981 6065; G2 XOR 2180 6065 6166; G2 XOR 6065 6072 6164; G2 AND 6165 6164 6163;
  G2 XOR 6057 5981 6185; G2 AND 6186 6185 6184; G2 XOR 6184 5981 5980; G2 XOR 6163 6072 6071;
  G2 XOR 6166 6072 6093; G2 XOR 6093 6078 6147; G2 XOR 2187 6093 6149; G2 AND 6148 6147 6146;
  G2 XOR 6146 6078 6077; G2 XOR 6149 6078 6099; G2 XOR 2193 6099 6136; G2 XOR 6136 6083 6104;
  G2 XOR 2198 6104 6127; G2 XOR 6099 6083 6134; G2 AND 6135 6134 6133; G2 XOR 6133 6083 6082;
  G2 XOR 6104 6087 6125; G2 AND 6126 6125 6124; G2 XOR 6124 6087 6086; G2 XOR 6127 6087 6108;
  G2 XOR 6108 6090 6120; G2 AND 6121 6120 6119; G2 XOR 6119 6090 6089; G2 XOR 2202 6108 6122;
  G2 XOR 6122 6090 6111; G2 XOR 2205 6111 13801; G2 AND 2205 6111 6091; G2 AND 6273 6272 6271;
  G2 XOR 6271 5954 5953; G2 XOR 6270 5953 6037; G2 XOR 2152 6037 6237; G2 XOR 6237 5963 6047;
  G2 XOR 2162 6047 6208; G2 XOR 6208 5972 6056; G2 XOR 2171 6056 6183; G2 XOR 6183 5980 6064;
  G2 XOR 2179 6064 6162; G2 XOR 6162 6071 6092; G2 XOR 2186 6092 6145; G2 XOR 6145 6077 6098;
  G2 XOR 2192 6098 6132; G2 XOR 6132 6082 6103; G2 XOR 2197 6103 6123; G2 XOR 6123 6086 6107;
  G2 XOR 2201 6107 6118; G2 XOR 6118 6089 6110; G2 XOR 2204 6110 6117; G2 XOR 6117 6091 6112;
  G2 XOR 2206 6112 13802; G2 AND 64 0 13739].
Definition mult64 : circuit := mkCircuit 13675 13803 [64; 64] [64] mult64_gates.

(** For i = 0..63 the wires of a_i b_0, ..., a_i b_(63-i). *)
Definition mult64_products : list (list N) := [
  [13739; 253; 315; 376; 436; 495; 553; 610; 666; 721; 775; 828; 880; 931; 981; 1030; 1078; 1125; 1171; 1216;
  1260; 1303; 1345; 1386; 1426; 1465; 1503; 1540; 1576; 1611; 1645; 1678; 1710; 1741; 1771; 1800; 1828; 1855;
  1881; 1906; 1930; 1953; 1975; 1996; 2016; 2035; 2053; 2070; 2086; 2101; 2115; 2128; 2140; 2151; 2161; 2170;
  2178; 2185; 2191; 2196; 2200; 2203; 2205; 2206];
  [190; 252; 314; 375; 435; 494; 552; 609; 665; 720; 774; 827; 879; 930; 980; 1029; 1077; 1124; 1170; 1215;
  1259; 1302; 1344; 1385; 1425; 1464; 1502; 1539; 1575; 1610; 1644; 1677; 1709; 1740; 1770; 1799; 1827; 1854;
  1880; 1905; 1929; 1952; 1974; 1995; 2015; 2034; 2052; 2069; 2085; 2100; 2114; 2127; 2139; 2150; 2160; 2169;
  2177; 2184; 2190; 2195; 2199; 2202; 2204];
  [189; 251; 313; 374; 434; 493; 551; 608; 664; 719; 773; 826; 878; 929; 979; 1028; 1076; 1123; 1169; 1214;
  1258; 1301; 1343; 1384; 1424; 1463; 1501; 1538; 1574; 1609; 1643; 1676; 1708; 1739; 1769; 1798; 1826; 1853;
  1879; 1904; 1928; 1951; 1973; 1994; 2014; 2033; 2051; 2068; 2084; 2099; 2113; 2126; 2138; 2149; 2159; 2168;
  2176; 2183; 2189; 2194; 2198; 2201];
  [188; 250; 312; 373; 433; 492; 550; 607; 663; 718; 772; 825; 877; 928; 978; 1027; 1075; 1122; 1168; 1213;
  1257; 1300; 1342; 1383; 1423; 1462; 1500; 1537; 1573; 1608; 1642; 1675; 1707; 1738; 1768; 1797; 1825; 1852;
  1878; 1903; 1927; 1950; 1972; 1993; 2013; 2032; 2050; 2067; 2083; 2098; 2112; 2125; 2137; 2148; 2158; 2167;
  2175; 2182; 2188; 2193; 2197];
  [187; 249; 311; 372; 432; 491; 549; 606; 662; 717; 771; 824; 876; 927; 977; 1026; 1074; 1121; 1167; 1212;
  1256; 1299; 1341; 1382; 1422; 1461; 1499; 1536; 1572; 1607; 1641; 1674; 1706; 1737; 1767; 1796; 1824; 1851;
  1877; 1902; 1926; 1949; 1971; 1992; 2012; 2031; 2049; 2066; 2082; 2097; 2111; 2124; 2136; 2147; 2157; 2166;
  2174; 2181; 2187; 2192];
  [186; 248; 310; 371; 431; 490; 548; 605; 661; 716; 770; 823; 875; 926; 976; 1025; 1073; 1120; 1166; 1211;
  1255; 1298; 1340; 1381; 1421; 1460; 1498; 1535; 1571; 1606; 1640; 1673; 1705; 1736; 1766; 1795; 1823; 1850;
  1876; 1901; 1925; 1948; 1970; 1991; 2011; 2030; 2048; 2065; 2081; 2096; 2110; 2123; 2135; 2146; 2156; 2165;
  2173; 2180; 2186];
  [185; 247; 309; 370; 430; 489; 547; 604; 660; 715; 769; 822; 874; 925; 975; 1024; 1072; 1119; 1165; 1210;
  1254; 1297; 1339; 1380; 1420; 1459; 1497; 1534; 1570; 1605; 1639; 1672; 1704; 1735; 1765; 1794; 1822; 1849;
  1875; 1900; 1924; 1947; 1969; 1990; 2010; 2029; 2047; 2064; 2080; 2095; 2109; 2122; 2134; 2145; 2155; 2164;
  2172; 2179];
  [184; 246; 308; 369; 429; 488; 546; 603; 659; 714; 768; 821; 873; 924; 974; 1023; 1071; 1118; 1164; 1209;
  1253; 1296; 1338; 1379; 1419; 1458; 1496; 1533; 1569; 1604; 1638; 1671; 1703; 1734; 1764; 1793; 1821; 1848;
  1874; 1899; 1923; 1946; 1968; 1989; 2009; 2028; 2046; 2063; 2079; 2094; 2108; 2121; 2133; 2144; 2154; 2163;
  2171];
  [183; 245; 307; 368; 428; 487; 545; 602; 658; 713; 767; 820; 872; 923; 973; 1022; 1070; 1117; 1163; 1208;
  1252; 1295; 1337; 1378; 1418; 1457; 1495; 1532; 1568; 1603; 1637; 1670; 1702; 1733; 1763; 1792; 1820; 1847;
  1873; 1898; 1922; 1945; 1967; 1988; 2008; 2027; 2045; 2062; 2078; 2093; 2107; 2120; 2132; 2143; 2153; 2162];
  [182; 244; 306; 367; 427; 486; 544; 601; 657; 712; 766; 819; 871; 922; 972; 1021; 1069; 1116; 1162; 1207;
  1251; 1294; 1336; 1377; 1417; 1456; 1494; 1531; 1567; 1602; 1636; 1669; 1701; 1732; 1762; 1791; 1819; 1846;
  1872; 1897; 1921; 1944; 1966; 1987; 2007; 2026; 2044; 2061; 2077; 2092; 2106; 2119; 2131; 2142; 2152];
  [181; 243; 305; 366; 426; 485; 543; 600; 656; 711; 765; 818; 870; 921; 971; 1020; 1068; 1115; 1161; 1206;
  1250; 1293; 1335; 1376; 1416; 1455; 1493; 1530; 1566; 1601; 1635; 1668; 1700; 1731; 1761; 1790; 1818; 1845;
  1871; 1896; 1920; 1943; 1965; 1986; 2006; 2025; 2043; 2060; 2076; 2091; 2105; 2118; 2130; 2141];
  [180; 242; 304; 365; 425; 484; 542; 599; 655; 710; 764; 817; 869; 920; 970; 1019; 1067; 1114; 1160; 1205;
  1249; 1292; 1334; 1375; 1415; 1454; 1492; 1529; 1565; 1600; 1634; 1667; 1699; 1730; 1760; 1789; 1817; 1844;
  1870; 1895; 1919; 1942; 1964; 1985; 2005; 2024; 2042; 2059; 2075; 2090; 2104; 2117; 2129];
  [179; 241; 303; 364; 424; 483; 541; 598; 654; 709; 763; 816; 868; 919; 969; 1018; 1066; 1113; 1159; 1204;
  1248; 1291; 1333; 1374; 1414; 1453; 1491; 1528; 1564; 1599; 1633; 1666; 1698; 1729; 1759; 1788; 1816; 1843;
  1869; 1894; 1918; 1941; 1963; 1984; 2004; 2023; 2041; 2058; 2074; 2089; 2103; 2116];
  [178; 240; 302; 363; 423; 482; 540; 597; 653; 708; 762; 815; 867; 918; 968; 1017; 1065; 1112; 1158; 1203;
  1247; 1290; 1332; 1373; 1413; 1452; 1490; 1527; 1563; 1598; 1632; 1665; 1697; 1728; 1758; 1787; 1815; 1842;
  1868; 1893; 1917; 1940; 1962; 1983; 2003; 2022; 2040; 2057; 2073; 2088; 2102];
  [177; 239; 301; 362; 422; 481; 539; 596; 652; 707; 761; 814; 866; 917; 967; 1016; 1064; 1111; 1157; 1202;
  1246; 1289; 1331; 1372; 1412; 1451; 1489; 1526; 1562; 1597; 1631; 1664; 1696; 1727; 1757; 1786; 1814; 1841;
  1867; 1892; 1916; 1939; 1961; 1982; 2002; 2021; 2039; 2056; 2072; 2087];
  [176; 238; 300; 361; 421; 480; 538; 595; 651; 706; 760; 813; 865; 916; 966; 1015; 1063; 1110; 1156; 1201;
  1245; 1288; 1330; 1371; 1411; 1450; 1488; 1525; 1561; 1596; 1630; 1663; 1695; 1726; 1756; 1785; 1813; 1840;
  1866; 1891; 1915; 1938; 1960; 1981; 2001; 2020; 2038; 2055; 2071];
  [175; 237; 299; 360; 420; 479; 537; 594; 650; 705; 759; 812; 864; 915; 965; 1014; 1062; 1109; 1155; 1200;
  1244; 1287; 1329; 1370; 1410; 1449; 1487; 1524; 1560; 1595; 1629; 1662; 1694; 1725; 1755; 1784; 1812; 1839;
  1865; 1890; 1914; 1937; 1959; 1980; 2000; 2019; 2037; 2054];
  [174; 236; 298; 359; 419; 478; 536; 593; 649; 704; 758; 811; 863; 914; 964; 1013; 1061; 1108; 1154; 1199;
  1243; 1286; 1328; 1369; 1409; 1448; 1486; 1523; 1559; 1594; 1628; 1661; 1693; 1724; 1754; 1783; 1811; 1838;
  1864; 1889; 1913; 1936; 1958; 1979; 1999; 2018; 2036];
  [173; 235; 297; 358; 418; 477; 535; 592; 648; 703; 757; 810; 862; 913; 963; 1012; 1060; 1107; 1153; 1198;
  1242; 1285; 1327; 1368; 1408; 1447; 1485; 1522; 1558; 1593; 1627; 1660; 1692; 1723; 1753; 1782; 1810; 1837;
  1863; 1888; 1912; 1935; 1957; 1978; 1998; 2017];
  [172; 234; 296; 357; 417; 476; 534; 591; 647; 702; 756; 809; 861; 912; 962; 1011; 1059; 1106; 1152; 1197;
  1241; 1284; 1326; 1367; 1407; 1446; 1484; 1521; 1557; 1592; 1626; 1659; 1691; 1722; 1752; 1781; 1809; 1836;
  1862; 1887; 1911; 1934; 1956; 1977; 1997];
  [171; 233; 295; 356; 416; 475; 533; 590; 646; 701; 755; 808; 860; 911; 961; 1010; 1058; 1105; 1151; 1196;
  1240; 1283; 1325; 1366; 1406; 1445; 1483; 1520; 1556; 1591; 1625; 1658; 1690; 1721; 1751; 1780; 1808; 1835;
  1861; 1886; 1910; 1933; 1955; 1976];
  [170; 232; 294; 355; 415; 474; 532; 589; 645; 700; 754; 807; 859; 910; 960; 1009; 1057; 1104; 1150; 1195;
  1239; 1282; 1324; 1365; 1405; 1444; 1482; 1519; 1555; 1590; 1624; 1657; 1689; 1720; 1750; 1779; 1807; 1834;
  1860; 1885; 1909; 1932; 1954];
  [169; 231; 293; 354; 414; 473; 531; 588; 644; 699; 753; 806; 858; 909; 959; 1008; 1056; 1103; 1149; 1194;
  1238; 1281; 1323; 1364; 1404; 1443; 1481; 1518; 1554; 1589; 1623; 1656; 1688; 1719; 1749; 1778; 1806; 1833;
  1859; 1884; 1908; 1931];
  [168; 230; 292; 353; 413; 472; 530; 587; 643; 698; 752; 805; 857; 908; 958; 1007; 1055; 1102; 1148; 1193;
  1237; 1280; 1322; 1363; 1403; 1442; 1480; 1517; 1553; 1588; 1622; 1655; 1687; 1718; 1748; 1777; 1805; 1832;
  1858; 1883; 1907];
  [167; 229; 291; 352; 412; 471; 529; 586; 642; 697; 751; 804; 856; 907; 957; 1006; 1054; 1101; 1147; 1192;
  1236; 1279; 1321; 1362; 1402; 1441; 1479; 1516; 1552; 1587; 1621; 1654; 1686; 1717; 1747; 1776; 1804; 1831;
  1857; 1882];
  [166; 228; 290; 351; 411; 470; 528; 585; 641; 696; 750; 803; 855; 906; 956; 1005; 1053; 1100; 1146; 1191;
  1235; 1278; 1320; 1361; 1401; 1440; 1478; 1515; 1551; 1586; 1620; 1653; 1685; 1716; 1746; 1775; 1803; 1830;
  1856];
  [165; 227; 289; 350; 410; 469; 527; 584; 640; 695; 749; 802; 854; 905; 955; 1004; 1052; 1099; 1145; 1190;
  1234; 1277; 1319; 1360; 1400; 1439; 1477; 1514; 1550; 1585; 1619; 1652; 1684; 1715; 1745; 1774; 1802; 1829];
  [164; 226; 288; 349; 409; 468; 526; 583; 639; 694; 748; 801; 853; 904; 954; 1003; 1051; 1098; 1144; 1189;
  1233; 1276; 1318; 1359; 1399; 1438; 1476; 1513; 1549; 1584; 1618; 1651; 1683; 1714; 1744; 1773; 1801];
  [163; 225; 287; 348; 408; 467; 525; 582; 638; 693; 747; 800; 852; 903; 953; 1002; 1050; 1097; 1143; 1188;
  1232; 1275; 1317; 1358; 1398; 1437; 1475; 1512; 1548; 1583; 1617; 1650; 1682; 1713; 1743; 1772];
  [162; 224; 286; 347; 407; 466; 524; 581; 637; 692; 746; 799; 851; 902; 952; 1001; 1049; 1096; 1142; 1187;
  1231; 1274; 1316; 1357; 1397; 1436; 1474; 1511; 1547; 1582; 1616; 1649; 1681; 1712; 1742];
  [161; 223; 285; 346; 406; 465; 523; 580; 636; 691; 745; 798; 850; 901; 951; 1000; 1048; 1095; 1141; 1186;
  1230; 1273; 1315; 1356; 1396; 1435; 1473; 1510; 1546; 1581; 1615; 1648; 1680; 1711];
  [160; 222; 284; 345; 405; 464; 522; 579; 635; 690; 744; 797; 849; 900; 950; 999; 1047; 1094; 1140; 1185;
  1229; 1272; 1314; 1355; 1395; 1434; 1472; 1509; 1545; 1580; 1614; 1647; 1679];
  [159; 221; 283; 344; 404; 463; 521; 578; 634; 689; 743; 796; 848; 899; 949; 998; 1046; 1093; 1139; 1184;
  1228; 1271; 1313; 1354; 1394; 1433; 1471; 1508; 1544; 1579; 1613; 1646];
  [158; 220; 282; 343; 403; 462; 520; 577; 633; 688; 742; 795; 847; 898; 948; 997; 1045; 1092; 1138; 1183;
  1227; 1270; 1312; 1353; 1393; 1432; 1470; 1507; 1543; 1578; 1612];
  [157; 219; 281; 342; 402; 461; 519; 576; 632; 687; 741; 794; 846; 897; 947; 996; 1044; 1091; 1137; 1182;
  1226; 1269; 1311; 1352; 1392; 1431; 1469; 1506; 1542; 1577];
  [156; 218; 280; 341; 401; 460; 518; 575; 631; 686; 740; 793; 845; 896; 946; 995; 1043; 1090; 1136; 1181;
  1225; 1268; 1310; 1351; 1391; 1430; 1468; 1505; 1541];
  [155; 217; 279; 340; 400; 459; 517; 574; 630; 685; 739; 792; 844; 895; 945; 994; 1042; 1089; 1135; 1180;
  1224; 1267; 1309; 1350; 1390; 1429; 1467; 1504];
  [154; 216; 278; 339; 399; 458; 516; 573; 629; 684; 738; 791; 843; 894; 944; 993; 1041; 1088; 1134; 1179;
  1223; 1266; 1308; 1349; 1389; 1428; 1466];
  [153; 215; 277; 338; 398; 457; 515; 572; 628; 683; 737; 790; 842; 893; 943; 992; 1040; 1087; 1133; 1178;
  1222; 1265; 1307; 1348; 1388; 1427];
  [152; 214; 276; 337; 397; 456; 514; 571; 627; 682; 736; 789; 841; 892; 942; 991; 1039; 1086; 1132; 1177;
  1221; 1264; 1306; 1347; 1387];
  [151; 213; 275; 336; 396; 455; 513; 570; 626; 681; 735; 788; 840; 891; 941; 990; 1038; 1085; 1131; 1176;
  1220; 1263; 1305; 1346];
  [150; 212; 274; 335; 395; 454; 512; 569; 625; 680; 734; 787; 839; 890; 940; 989; 1037; 1084; 1130; 1175;
  1219; 1262; 1304];
  [149; 211; 273; 334; 394; 453; 511; 568; 624; 679; 733; 786; 838; 889; 939; 988; 1036; 1083; 1129; 1174;
  1218; 1261];
  [148; 210; 272; 333; 393; 452; 510; 567; 623; 678; 732; 785; 837; 888; 938; 987; 1035; 1082; 1128; 1173;
  1217];
  [147; 209; 271; 332; 392; 451; 509; 566; 622; 677; 731; 784; 836; 887; 937; 986; 1034; 1081; 1127; 1172];
  [146; 208; 270; 331; 391; 450; 508; 565; 621; 676; 730; 783; 835; 886; 936; 985; 1033; 1080; 1126];
  [145; 207; 269; 330; 390; 449; 507; 564; 620; 675; 729; 782; 834; 885; 935; 984; 1032; 1079];
  [144; 206; 268; 329; 389; 448; 506; 563; 619; 674; 728; 781; 833; 884; 934; 983; 1031];
  [143; 205; 267; 328; 388; 447; 505; 562; 618; 673; 727; 780; 832; 883; 933; 982];
  [142; 204; 266; 327; 387; 446; 504; 561; 617; 672; 726; 779; 831; 882; 932];
  [141; 203; 265; 326; 386; 445; 503; 560; 616; 671; 725; 778; 830; 881];
  [140; 202; 264; 325; 385; 444; 502; 559; 615; 670; 724; 777; 829];
  [139; 201; 263; 324; 384; 443; 501; 558; 614; 669; 723; 776];
  [138; 200; 262; 323; 383; 442; 500; 557; 613; 668; 722];
  [137; 199; 261; 322; 382; 441; 499; 556; 612; 667];
  [136; 198; 260; 321; 381; 440; 498; 555; 611];
  [135; 197; 259; 320; 380; 439; 497; 554];
  [134; 196; 258; 319; 379; 438; 496];
  [133; 195; 257; 318; 378; 437];
  [132; 194; 256; 317; 377];
  [131; 193; 255; 316];
  [130; 192; 254];
  [129; 191];
  [128]].
Definition mult64_cert : list step := [
  ha 1%nat 253 190 13740 2268; fa 2%nat 252 189 2268 2736 2267; fa 3%nat 251 188 2267 2735 2266;
  fa 4%nat 250 187 2266 2734 2265; fa 5%nat 249 186 2265 2733 2264; fa 6%nat 248 185 2264 2732 2263;
  fa 7%nat 247 184 2263 2731 2262; fa 8%nat 246 183 2262 2730 2261; fa 9%nat 245 182 2261 2729 2260;
  fa 10%nat 244 181 2260 2728 2259; fa 11%nat 243 180 2259 2727 2258; fa 12%nat 242 179 2258 2726 2257;
  fa 13%nat 241 178 2257 2725 2256; fa 14%nat 240 177 2256 2724 2255; fa 15%nat 239 176 2255 2723 2254;
  fa 16%nat 238 175 2254 2722 2253; fa 17%nat 237 174 2253 2721 2252; fa 18%nat 236 173 2252 2720 2251;
  fa 19%nat 235 172 2251 2719 2250; fa 20%nat 234 171 2250 2718 2249; fa 21%nat 233 170 2249 2717 2248;
  fa 22%nat 232 169 2248 2716 2247; fa 23%nat 231 168 2247 2715 2246; fa 24%nat 230 167 2246 2714 2245;
  fa 25%nat 229 166 2245 2713 2244; fa 26%nat 228 165 2244 2712 2243; fa 27%nat 227 164 2243 2711 2242;
  fa 28%nat 226 163 2242 2710 2241; fa 29%nat 225 162 2241 2709 2240; fa 30%nat 224 161 2240 2708 2239;
  fa 31%nat 223 160 2239 2707 2238; fa 32%nat 222 159 2238 2706 2237; fa 33%nat 221 158 2237 2705 2236;
  fa 34%nat 220 157 2236 2704 2235; fa 35%nat 219 156 2235 2703 2234; fa 36%nat 218 155 2234 2702 2233;
  fa 37%nat 217 154 2233 2701 2232; fa 38%nat 216 153 2232 2700 2231; fa 39%nat 215 152 2231 2699 2230;
  fa 40%nat 214 151 2230 2698 2229; fa 41%nat 213 150 2229 2697 2228; fa 42%nat 212 149 2228 2696 2227;
  fa 43%nat 211 148 2227 2695 2226; fa 44%nat 210 147 2226 2694 2225; fa 45%nat 209 146 2225 2693 2224;
  fa 46%nat 208 145 2224 2692 2223; fa 47%nat 207 144 2223 2691 2222; fa 48%nat 206 143 2222 2690 2221;
  fa 49%nat 205 142 2221 2689 2220; fa 50%nat 204 141 2220 2688 2219; fa 51%nat 203 140 2219 2687 2218;
  fa 52%nat 202 139 2218 2686 2217; fa 53%nat 201 138 2217 2685 2216; fa 54%nat 200 137 2216 2684 2215;
  fa 55%nat 199 136 2215 2683 2214; fa 56%nat 198 135 2214 2682 2213; fa 57%nat 197 134 2213 2681 2212;
  fa 58%nat 196 133 2212 2680 2211; fa 59%nat 195 132 2211 2679 2210; fa 60%nat 194 131 2210 2678 2209;
  fa 61%nat 193 130 2209 2677 2208; fa 62%nat 192 129 2208 2676 2207; ha 2%nat 315 2736 13741 2329;
  fa 3%nat 314 2735 2329 2797 2328; fa 4%nat 313 2734 2328 2796 2327; fa 5%nat 312 2733 2327 2795 2326;
  fa 6%nat 311 2732 2326 2794 2325; fa 7%nat 310 2731 2325 2793 2324; fa 8%nat 309 2730 2324 2792 2323;
  fa 9%nat 308 2729 2323 2791 2322; fa 10%nat 307 2728 2322 2790 2321; fa 11%nat 306 2727 2321 2789 2320;
  fa 12%nat 305 2726 2320 2788 2319; fa 13%nat 304 2725 2319 2787 2318; fa 14%nat 303 2724 2318 2786 2317;
  fa 15%nat 302 2723 2317 2785 2316; fa 16%nat 301 2722 2316 2784 2315; fa 17%nat 300 2721 2315 2783 2314;
  fa 18%nat 299 2720 2314 2782 2313; fa 19%nat 298 2719 2313 2781 2312; fa 20%nat 297 2718 2312 2780 2311;
  fa 21%nat 296 2717 2311 2779 2310; fa 22%nat 295 2716 2310 2778 2309; fa 23%nat 294 2715 2309 2777 2308;
  fa 24%nat 293 2714 2308 2776 2307; fa 25%nat 292 2713 2307 2775 2306; fa 26%nat 291 2712 2306 2774 2305;
  fa 27%nat 290 2711 2305 2773 2304; fa 28%nat 289 2710 2304 2772 2303; fa 29%nat 288 2709 2303 2771 2302;
  fa 30%nat 287 2708 2302 2770 2301; fa 31%nat 286 2707 2301 2769 2300; fa 32%nat 285 2706 2300 2768 2299;
  fa 33%nat 284 2705 2299 2767 2298; fa 34%nat 283 2704 2298 2766 2297; fa 35%nat 282 2703 2297 2765 2296;
  fa 36%nat 281 2702 2296 2764 2295; fa 37%nat 280 2701 2295 2763 2294; fa 38%nat 279 2700 2294 2762 2293;
  fa 39%nat 278 2699 2293 2761 2292; fa 40%nat 277 2698 2292 2760 2291; fa 41%nat 276 2697 2291 2759 2290;
  fa 42%nat 275 2696 2290 2758 2289; fa 43%nat 274 2695 2289 2757 2288; fa 44%nat 273 2694 2288 2756 2287;
  fa 45%nat 272 2693 2287 2755 2286; fa 46%nat 271 2692 2286 2754 2285; fa 47%nat 270 2691 2285 2753 2284;
  fa 48%nat 269 2690 2284 2752 2283; fa 49%nat 268 2689 2283 2751 2282; fa 50%nat 267 2688 2282 2750 2281;
  fa 51%nat 266 2687 2281 2749 2280; fa 52%nat 265 2686 2280 2748 2279; fa 53%nat 264 2685 2279 2747 2278;
  fa 54%nat 263 2684 2278 2746 2277; fa 55%nat 262 2683 2277 2745 2276; fa 56%nat 261 2682 2276 2744 2275;
  fa 57%nat 260 2681 2275 2743 2274; fa 58%nat 259 2680 2274 2742 2273; fa 59%nat 258 2679 2273 2741 2272;
  fa 60%nat 257 2678 2272 2740 2271; fa 61%nat 256 2677 2271 2739 2270; fa 62%nat 255 2676 2270 2738 2269;
  ha 3%nat 376 2797 13742 2389; fa 4%nat 375 2796 2389 2857 2388; fa 5%nat 374 2795 2388 2856 2387;
  fa 6%nat 373 2794 2387 2855 2386; fa 7%nat 372 2793 2386 2854 2385; fa 8%nat 371 2792 2385 2853 2384;
  fa 9%nat 370 2791 2384 2852 2383; fa 10%nat 369 2790 2383 2851 2382; fa 11%nat 368 2789 2382 2850 2381;
  fa 12%nat 367 2788 2381 2849 2380; fa 13%nat 366 2787 2380 2848 2379; fa 14%nat 365 2786 2379 2847 2378;
  fa 15%nat 364 2785 2378 2846 2377; fa 16%nat 363 2784 2377 2845 2376; fa 17%nat 362 2783 2376 2844 2375;
  fa 18%nat 361 2782 2375 2843 2374; fa 19%nat 360 2781 2374 2842 2373; fa 20%nat 359 2780 2373 2841 2372;
  fa 21%nat 358 2779 2372 2840 2371; fa 22%nat 357 2778 2371 2839 2370; fa 23%nat 356 2777 2370 2838 2369;
  fa 24%nat 355 2776 2369 2837 2368; fa 25%nat 354 2775 2368 2836 2367; fa 26%nat 353 2774 2367 2835 2366;
  fa 27%nat 352 2773 2366 2834 2365; fa 28%nat 351 2772 2365 2833 2364; fa 29%nat 350 2771 2364 2832 2363;
  fa 30%nat 349 2770 2363 2831 2362; fa 31%nat 348 2769 2362 2830 2361; fa 32%nat 347 2768 2361 2829 2360;
  fa 33%nat 346 2767 2360 2828 2359; fa 34%nat 345 2766 2359 2827 2358; fa 35%nat 344 2765 2358 2826 2357;
  fa 36%nat 343 2764 2357 2825 2356; fa 37%nat 342 2763 2356 2824 2355; fa 38%nat 341 2762 2355 2823 2354;
  fa 39%nat 340 2761 2354 2822 2353; fa 40%nat 339 2760 2353 2821 2352; fa 41%nat 338 2759 2352 2820 2351;
  fa 42%nat 337 2758 2351 2819 2350; fa 43%nat 336 2757 2350 2818 2349; fa 44%nat 335 2756 2349 2817 2348;
  fa 45%nat 334 2755 2348 2816 2347; fa 46%nat 333 2754 2347 2815 2346; fa 47%nat 332 2753 2346 2814 2345;
  fa 48%nat 331 2752 2345 2813 2344; fa 49%nat 330 2751 2344 2812 2343; fa 50%nat 329 2750 2343 2811 2342;
  fa 51%nat 328 2749 2342 2810 2341; fa 52%nat 327 2748 2341 2809 2340; fa 53%nat 326 2747 2340 2808 2339;
  fa 54%nat 325 2746 2339 2807 2338; fa 55%nat 324 2745 2338 2806 2337; fa 56%nat 323 2744 2337 2805 2336;
  fa 57%nat 322 2743 2336 2804 2335; fa 58%nat 321 2742 2335 2803 2334; fa 59%nat 320 2741 2334 2802 2333;
  fa 60%nat 319 2740 2333 2801 2332; fa 61%nat 318 2739 2332 2800 2331; fa 62%nat 317 2738 2331 2799 2330;
  ha 4%nat 436 2857 13743 2448; fa 5%nat 435 2856 2448 2916 2447; fa 6%nat 434 2855 2447 2915 2446;
  fa 7%nat 433 2854 2446 2914 2445; fa 8%nat 432 2853 2445 2913 2444; fa 9%nat 431 2852 2444 2912 2443;
  fa 10%nat 430 2851 2443 2911 2442; fa 11%nat 429 2850 2442 2910 2441; fa 12%nat 428 2849 2441 2909 2440;
  fa 13%nat 427 2848 2440 2908 2439; fa 14%nat 426 2847 2439 2907 2438; fa 15%nat 425 2846 2438 2906 2437;
  fa 16%nat 424 2845 2437 2905 2436; fa 17%nat 423 2844 2436 2904 2435; fa 18%nat 422 2843 2435 2903 2434;
  fa 19%nat 421 2842 2434 2902 2433; fa 20%nat 420 2841 2433 2901 2432; fa 21%nat 419 2840 2432 2900 2431;
  fa 22%nat 418 2839 2431 2899 2430; fa 23%nat 417 2838 2430 2898 2429; fa 24%nat 416 2837 2429 2897 2428;
  fa 25%nat 415 2836 2428 2896 2427; fa 26%nat 414 2835 2427 2895 2426; fa 27%nat 413 2834 2426 2894 2425;
  fa 28%nat 412 2833 2425 2893 2424; fa 29%nat 411 2832 2424 2892 2423; fa 30%nat 410 2831 2423 2891 2422;
  fa 31%nat 409 2830 2422 2890 2421; fa 32%nat 408 2829 2421 2889 2420; fa 33%nat 407 2828 2420 2888 2419;
  fa 34%nat 406 2827 2419 2887 2418; fa 35%nat 405 2826 2418 2886 2417; fa 36%nat 404 2825 2417 2885 2416;
  fa 37%nat 403 2824 2416 2884 2415; fa 38%nat 402 2823 2415 2883 2414; fa 39%nat 401 2822 2414 2882 2413;
  fa 40%nat 400 2821 2413 2881 2412; fa 41%nat 399 2820 2412 2880 2411; fa 42%nat 398 2819 2411 2879 2410;
  fa 43%nat 397 2818 2410 2878 2409; fa 44%nat 396 2817 2409 2877 2408; fa 45%nat 395 2816 2408 2876 2407;
  fa 46%nat 394 2815 2407 2875 2406; fa 47%nat 393 2814 2406 2874 2405; fa 48%nat 392 2813 2405 2873 2404;
  fa 49%nat 391 2812 2404 2872 2403; fa 50%nat 390 2811 2403 2871 2402; fa 51%nat 389 2810 2402 2870 2401;
  fa 52%nat 388 2809 2401 2869 2400; fa 53%nat 387 2808 2400 2868 2399; fa 54%nat 386 2807 2399 2867 2398;
  fa 55%nat 385 2806 2398 2866 2397; fa 56%nat 384 2805 2397 2865 2396; fa 57%nat 383 2804 2396 2864 2395;
  fa 58%nat 382 2803 2395 2863 2394; fa 59%nat 381 2802 2394 2862 2393; fa 60%nat 380 2801 2393 2861 2392;
  fa 61%nat 379 2800 2392 2860 2391; fa 62%nat 378 2799 2391 2859 2390; ha 5%nat 495 2916 13744 2506;
  fa 6%nat 494 2915 2506 2974 2505; fa 7%nat 493 2914 2505 2973 2504; fa 8%nat 492 2913 2504 2972 2503;
  fa 9%nat 491 2912 2503 2971 2502; fa 10%nat 490 2911 2502 2970 2501; fa 11%nat 489 2910 2501 2969 2500;
  fa 12%nat 488 2909 2500 2968 2499; fa 13%nat 487 2908 2499 2967 2498; fa 14%nat 486 2907 2498 2966 2497;
  fa 15%nat 485 2906 2497 2965 2496; fa 16%nat 484 2905 2496 2964 2495; fa 17%nat 483 2904 2495 2963 2494;
  fa 18%nat 482 2903 2494 2962 2493; fa 19%nat 481 2902 2493 2961 2492; fa 20%nat 480 2901 2492 2960 2491;
  fa 21%nat 479 2900 2491 2959 2490; fa 22%nat 478 2899 2490 2958 2489; fa 23%nat 477 2898 2489 2957 2488;
  fa 24%nat 476 2897 2488 2956 2487; fa 25%nat 475 2896 2487 2955 2486; fa 26%nat 474 2895 2486 2954 2485;
  fa 27%nat 473 2894 2485 2953 2484; fa 28%nat 472 2893 2484 2952 2483; fa 29%nat 471 2892 2483 2951 2482;
  fa 30%nat 470 2891 2482 2950 2481; fa 31%nat 469 2890 2481 2949 2480; fa 32%nat 468 2889 2480 2948 2479;
  fa 33%nat 467 2888 2479 2947 2478; fa 34%nat 466 2887 2478 2946 2477; fa 35%nat 465 2886 2477 2945 2476;
  fa 36%nat 464 2885 2476 2944 2475; fa 37%nat 463 2884 2475 2943 2474; fa 38%nat 462 2883 2474 2942 2473;
  fa 39%nat 461 2882 2473 2941 2472; fa 40%nat 460 2881 2472 2940 2471; fa 41%nat 459 2880 2471 2939 2470;
  fa 42%nat 458 2879 2470 2938 2469; fa 43%nat 457 2878 2469 2937 2468; fa 44%nat 456 2877 2468 2936 2467;
  fa 45%nat 455 2876 2467 2935 2466; fa 46%nat 454 2875 2466 2934 2465; fa 47%nat 453 2874 2465 2933 2464;
  fa 48%nat 452 2873 2464 2932 2463; fa 49%nat 451 2872 2463 2931 2462; fa 50%nat 450 2871 2462 2930 2461;
  fa 51%nat 449 2870 2461 2929 2460; fa 52%nat 448 2869 2460 2928 2459; fa 53%nat 447 2868 2459 2927 2458;
  fa 54%nat 446 2867 2458 2926 2457; fa 55%nat 445 2866 2457 2925 2456; fa 56%nat 444 2865 2456 2924 2455;
  fa 57%nat 443 2864 2455 2923 2454; fa 58%nat 442 2863 2454 2922 2453; fa 59%nat 441 2862 2453 2921 2452;
  fa 60%nat 440 2861 2452 2920 2451; fa 61%nat 439 2860 2451 2919 2450; fa 62%nat 438 2859 2450 2918 2449;
  ha 6%nat 553 2974 13745 2563; fa 7%nat 552 2973 2563 3031 2562; fa 8%nat 551 2972 2562 3030 2561;
  fa 9%nat 550 2971 2561 3029 2560; fa 10%nat 549 2970 2560 3028 2559; fa 11%nat 548 2969 2559 3027 2558;
  fa 12%nat 547 2968 2558 3026 2557; fa 13%nat 546 2967 2557 3025 2556; fa 14%nat 545 2966 2556 3024 2555;
  fa 15%nat 544 2965 2555 3023 2554; fa 16%nat 543 2964 2554 3022 2553; fa 17%nat 542 2963 2553 3021 2552;
  fa 18%nat 541 2962 2552 3020 2551; fa 19%nat 540 2961 2551 3019 2550; fa 20%nat 539 2960 2550 3018 2549;
  fa 21%nat 538 2959 2549 3017 2548; fa 22%nat 537 2958 2548 3016 2547; fa 23%nat 536 2957 2547 3015 2546;
  fa 24%nat 535 2956 2546 3014 2545; fa 25%nat 534 2955 2545 3013 2544; fa 26%nat 533 2954 2544 3012 2543;
  fa 27%nat 532 2953 2543 3011 2542; fa 28%nat 531 2952 2542 3010 2541; fa 29%nat 530 2951 2541 3009 2540;
  fa 30%nat 529 2950 2540 3008 2539; fa 31%nat 528 2949 2539 3007 2538; fa 32%nat 527 2948 2538 3006 2537;
  fa 33%nat 526 2947 2537 3005 2536; fa 34%nat 525 2946 2536 3004 2535; fa 35%nat 524 2945 2535 3003 2534;
  fa 36%nat 523 2944 2534 3002 2533; fa 37%nat 522 2943 2533 3001 2532; fa 38%nat 521 2942 2532 3000 2531;
  fa 39%nat 520 2941 2531 2999 2530; fa 40%nat 519 2940 2530 2998 2529; fa 41%nat 518 2939 2529 2997 2528;
  fa 42%nat 517 2938 2528 2996 2527; fa 43%nat 516 2937 2527 2995 2526; fa 44%nat 515 2936 2526 2994 2525;
  fa 45%nat 514 2935 2525 2993 2524; fa 46%nat 513 2934 2524 2992 2523; fa 47%nat 512 2933 2523 2991 2522;
  fa 48%nat 511 2932 2522 2990 2521; fa 49%nat 510 2931 2521 2989 2520; fa 50%nat 509 2930 2520 2988 2519;
  fa 51%nat 508 2929 2519 2987 2518; fa 52%nat 507 2928 2518 2986 2517; fa 53%nat 506 2927 2517 2985 2516;
  fa 54%nat 505 2926 2516 2984 2515; fa 55%nat 504 2925 2515 2983 2514; fa 56%nat 503 2924 2514 2982 2513;
  fa 57%nat 502 2923 2513 2981 2512; fa 58%nat 501 2922 2512 2980 2511; fa 59%nat 500 2921 2511 2979 2510;
  fa 60%nat 499 2920 2510 2978 2509; fa 61%nat 498 2919 2509 2977 2508; fa 62%nat 497 2918 2508 2976 2507;
  ha 7%nat 610 3031 13746 2619; fa 8%nat 609 3030 2619 3087 2618; fa 9%nat 608 3029 2618 3086 2617;
  fa 10%nat 607 3028 2617 3085 2616; fa 11%nat 606 3027 2616 3084 2615; fa 12%nat 605 3026 2615 3083 2614;
  fa 13%nat 604 3025 2614 3082 2613; fa 14%nat 603 3024 2613 3081 2612; fa 15%nat 602 3023 2612 3080 2611;
  fa 16%nat 601 3022 2611 3079 2610; fa 17%nat 600 3021 2610 3078 2609; fa 18%nat 599 3020 2609 3077 2608;
  fa 19%nat 598 3019 2608 3076 2607; fa 20%nat 597 3018 2607 3075 2606; fa 21%nat 596 3017 2606 3074 2605;
  fa 22%nat 595 3016 2605 3073 2604; fa 23%nat 594 3015 2604 3072 2603; fa 24%nat 593 3014 2603 3071 2602;
  fa 25%nat 592 3013 2602 3070 2601; fa 26%nat 591 3012 2601 3069 2600; fa 27%nat 590 3011 2600 3068 2599;
  fa 28%nat 589 3010 2599 3067 2598; fa 29%nat 588 3009 2598 3066 2597; fa 30%nat 587 3008 2597 3065 2596;
  fa 31%nat 586 3007 2596 3064 2595; fa 32%nat 585 3006 2595 3063 2594; fa 33%nat 584 3005 2594 3062 2593;
  fa 34%nat 583 3004 2593 3061 2592; fa 35%nat 582 3003 2592 3060 2591; fa 36%nat 581 3002 2591 3059 2590;
  fa 37%nat 580 3001 2590 3058 2589; fa 38%nat 579 3000 2589 3057 2588; fa 39%nat 578 2999 2588 3056 2587;
  fa 40%nat 577 2998 2587 3055 2586; fa 41%nat 576 2997 2586 3054 2585; fa 42%nat 575 2996 2585 3053 2584;
  fa 43%nat 574 2995 2584 3052 2583; fa 44%nat 573 2994 2583 3051 2582; fa 45%nat 572 2993 2582 3050 2581;
  fa 46%nat 571 2992 2581 3049 2580; fa 47%nat 570 2991 2580 3048 2579; fa 48%nat 569 2990 2579 3047 2578;
  fa 49%nat 568 2989 2578 3046 2577; fa 50%nat 567 2988 2577 3045 2576; fa 51%nat 566 2987 2576 3044 2575;
  fa 52%nat 565 2986 2575 3043 2574; fa 53%nat 564 2985 2574 3042 2573; fa 54%nat 563 2984 2573 3041 2572;
  fa 55%nat 562 2983 2572 3040 2571; fa 56%nat 561 2982 2571 3039 2570; fa 57%nat 560 2981 2570 3038 2569;
  fa 58%nat 559 2980 2569 3037 2568; fa 59%nat 558 2979 2568 3036 2567; fa 60%nat 557 2978 2567 3035 2566;
  fa 61%nat 556 2977 2566 3034 2565; fa 62%nat 555 2976 2565 3033 2564; ha 8%nat 666 3087 13747 2674;
  fa 9%nat 665 3086 2674 3142 2673; fa 10%nat 664 3085 2673 3141 2672; fa 11%nat 663 3084 2672 3140 2671;
  fa 12%nat 662 3083 2671 3139 2670; fa 13%nat 661 3082 2670 3138 2669; fa 14%nat 660 3081 2669 3137 2668;
  fa 15%nat 659 3080 2668 3136 2667; fa 16%nat 658 3079 2667 3135 2666; fa 17%nat 657 3078 2666 3134 2665;
  fa 18%nat 656 3077 2665 3133 2664; fa 19%nat 655 3076 2664 3132 2663; fa 20%nat 654 3075 2663 3131 2662;
  fa 21%nat 653 3074 2662 3130 2661; fa 22%nat 652 3073 2661 3129 2660; fa 23%nat 651 3072 2660 3128 2659;
  fa 24%nat 650 3071 2659 3127 2658; fa 25%nat 649 3070 2658 3126 2657; fa 26%nat 648 3069 2657 3125 2656;
  fa 27%nat 647 3068 2656 3124 2655; fa 28%nat 646 3067 2655 3123 2654; fa 29%nat 645 3066 2654 3122 2653;
  fa 30%nat 644 3065 2653 3121 2652; fa 31%nat 643 3064 2652 3120 2651; fa 32%nat 642 3063 2651 3119 2650;
  fa 33%nat 641 3062 2650 3118 2649; fa 34%nat 640 3061 2649 3117 2648; fa 35%nat 639 3060 2648 3116 2647;
  fa 36%nat 638 3059 2647 3115 2646; fa 37%nat 637 3058 2646 3114 2645; fa 38%nat 636 3057 2645 3113 2644;
  fa 39%nat 635 3056 2644 3112 2643; fa 40%nat 634 3055 2643 3111 2642; fa 41%nat 633 3054 2642 3110 2641;
  fa 42%nat 632 3053 2641 3109 2640; fa 43%nat 631 3052 2640 3108 2639; fa 44%nat 630 3051 2639 3107 2638;
  fa 45%nat 629 3050 2638 3106 2637; fa 46%nat 628 3049 2637 3105 2636; fa 47%nat 627 3048 2636 3104 2635;
  fa 48%nat 626 3047 2635 3103 2634; fa 49%nat 625 3046 2634 3102 2633; fa 50%nat 624 3045 2633 3101 2632;
  fa 51%nat 623 3044 2632 3100 2631; fa 52%nat 622 3043 2631 3099 2630; fa 53%nat 621 3042 2630 3098 2629;
  fa 54%nat 620 3041 2629 3097 2628; fa 55%nat 619 3040 2628 3096 2627; fa 56%nat 618 3039 2627 3095 2626;
  fa 57%nat 617 3038 2626 3094 2625; fa 58%nat 616 3037 2625 3093 2624; fa 59%nat 615 3036 2624 3092 2623;
  fa 60%nat 614 3035 2623 3091 2622; fa 61%nat 613 3034 2622 3090 2621; fa 62%nat 612 3033 2621 3089 2620;
  ha 9%nat 721 3142 13748 3196; fa 10%nat 720 3141 3196 3600 3195; fa 11%nat 719 3140 3195 3599 3194;
  fa 12%nat 718 3139 3194 3598 3193; fa 13%nat 717 3138 3193 3597 3192; fa 14%nat 716 3137 3192 3596 3191;
  fa 15%nat 715 3136 3191 3595 3190; fa 16%nat 714 3135 3190 3594 3189; fa 17%nat 713 3134 3189 3593 3188;
  fa 18%nat 712 3133 3188 3592 3187; fa 19%nat 711 3132 3187 3591 3186; fa 20%nat 710 3131 3186 3590 3185;
  fa 21%nat 709 3130 3185 3589 3184; fa 22%nat 708 3129 3184 3588 3183; fa 23%nat 707 3128 3183 3587 3182;
  fa 24%nat 706 3127 3182 3586 3181; fa 25%nat 705 3126 3181 3585 3180; fa 26%nat 704 3125 3180 3584 3179;
  fa 27%nat 703 3124 3179 3583 3178; fa 28%nat 702 3123 3178 3582 3177; fa 29%nat 701 3122 3177 3581 3176;
  fa 30%nat 700 3121 3176 3580 3175; fa 31%nat 699 3120 3175 3579 3174; fa 32%nat 698 3119 3174 3578 3173;
  fa 33%nat 697 3118 3173 3577 3172; fa 34%nat 696 3117 3172 3576 3171; fa 35%nat 695 3116 3171 3575 3170;
  fa 36%nat 694 3115 3170 3574 3169; fa 37%nat 693 3114 3169 3573 3168; fa 38%nat 692 3113 3168 3572 3167;
  fa 39%nat 691 3112 3167 3571 3166; fa 40%nat 690 3111 3166 3570 3165; fa 41%nat 689 3110 3165 3569 3164;
  fa 42%nat 688 3109 3164 3568 3163; fa 43%nat 687 3108 3163 3567 3162; fa 44%nat 686 3107 3162 3566 3161;
  fa 45%nat 685 3106 3161 3565 3160; fa 46%nat 684 3105 3160 3564 3159; fa 47%nat 683 3104 3159 3563 3158;
  fa 48%nat 682 3103 3158 3562 3157; fa 49%nat 681 3102 3157 3561 3156; fa 50%nat 680 3101 3156 3560 3155;
  fa 51%nat 679 3100 3155 3559 3154; fa 52%nat 678 3099 3154 3558 3153; fa 53%nat 677 3098 3153 3557 3152;
  fa 54%nat 676 3097 3152 3556 3151; fa 55%nat 675 3096 3151 3555 3150; fa 56%nat 674 3095 3150 3554 3149;
  fa 57%nat 673 3094 3149 3553 3148; fa 58%nat 672 3093 3148 3552 3147; fa 59%nat 671 3092 3147 3551 3146;
  fa 60%nat 670 3091 3146 3550 3145; fa 61%nat 669 3090 3145 3549 3144; fa 62%nat 668 3089 3144 3548 3143;
  ha 10%nat 775 3600 13749 3249; fa 11%nat 774 3599 3249 3653 3248; fa 12%nat 773 3598 3248 3652 3247;
  fa 13%nat 772 3597 3247 3651 3246; fa 14%nat 771 3596 3246 3650 3245; fa 15%nat 770 3595 3245 3649 3244;
  fa 16%nat 769 3594 3244 3648 3243; fa 17%nat 768 3593 3243 3647 3242; fa 18%nat 767 3592 3242 3646 3241;
  fa 19%nat 766 3591 3241 3645 3240; fa 20%nat 765 3590 3240 3644 3239; fa 21%nat 764 3589 3239 3643 3238;
  fa 22%nat 763 3588 3238 3642 3237; fa 23%nat 762 3587 3237 3641 3236; fa 24%nat 761 3586 3236 3640 3235;
  fa 25%nat 760 3585 3235 3639 3234; fa 26%nat 759 3584 3234 3638 3233; fa 27%nat 758 3583 3233 3637 3232;
  fa 28%nat 757 3582 3232 3636 3231; fa 29%nat 756 3581 3231 3635 3230; fa 30%nat 755 3580 3230 3634 3229;
  fa 31%nat 754 3579 3229 3633 3228; fa 32%nat 753 3578 3228 3632 3227; fa 33%nat 752 3577 3227 3631 3226;
  fa 34%nat 751 3576 3226 3630 3225; fa 35%nat 750 3575 3225 3629 3224; fa 36%nat 749 3574 3224 3628 3223;
  fa 37%nat 748 3573 3223 3627 3222; fa 38%nat 747 3572 3222 3626 3221; fa 39%nat 746 3571 3221 3625 3220;
  fa 40%nat 745 3570 3220 3624 3219; fa 41%nat 744 3569 3219 3623 3218; fa 42%nat 743 3568 3218 3622 3217;
  fa 43%nat 742 3567 3217 3621 3216; fa 44%nat 741 3566 3216 3620 3215; fa 45%nat 740 3565 3215 3619 3214;
  fa 46%nat 739 3564 3214 3618 3213; fa 47%nat 738 3563 3213 3617 3212; fa 48%nat 737 3562 3212 3616 3211;
  fa 49%nat 736 3561 3211 3615 3210; fa 50%nat 735 3560 3210 3614 3209; fa 51%nat 734 3559 3209 3613 3208;
  fa 52%nat 733 3558 3208 3612 3207; fa 53%nat 732 3557 3207 3611 3206; fa 54%nat 731 3556 3206 3610 3205;
  fa 55%nat 730 3555 3205 3609 3204; fa 56%nat 729 3554 3204 3608 3203; fa 57%nat 728 3553 3203 3607 3202;
  fa 58%nat 727 3552 3202 3606 3201; fa 59%nat 726 3551 3201 3605 3200; fa 60%nat 725 3550 3200 3604 3199;
  fa 61%nat 724 3549 3199 3603 3198; fa 62%nat 723 3548 3198 3602 3197; ha 11%nat 828 3653 13750 3301;
  fa 12%nat 827 3652 3301 3705 3300; fa 13%nat 826 3651 3300 3704 3299; fa 14%nat 825 3650 3299 3703 3298;
  fa 15%nat 824 3649 3298 3702 3297; fa 16%nat 823 3648 3297 3701 3296; fa 17%nat 822 3647 3296 3700 3295;
  fa 18%nat 821 3646 3295 3699 3294; fa 19%nat 820 3645 3294 3698 3293; fa 20%nat 819 3644 3293 3697 3292;
  fa 21%nat 818 3643 3292 3696 3291; fa 22%nat 817 3642 3291 3695 3290; fa 23%nat 816 3641 3290 3694 3289;
  fa 24%nat 815 3640 3289 3693 3288; fa 25%nat 814 3639 3288 3692 3287; fa 26%nat 813 3638 3287 3691 3286;
  fa 27%nat 812 3637 3286 3690 3285; fa 28%nat 811 3636 3285 3689 3284; fa 29%nat 810 3635 3284 3688 3283;
  fa 30%nat 809 3634 3283 3687 3282; fa 31%nat 808 3633 3282 3686 3281; fa 32%nat 807 3632 3281 3685 3280;
  fa 33%nat 806 3631 3280 3684 3279; fa 34%nat 805 3630 3279 3683 3278; fa 35%nat 804 3629 3278 3682 3277;
  fa 36%nat 803 3628 3277 3681 3276; fa 37%nat 802 3627 3276 3680 3275; fa 38%nat 801 3626 3275 3679 3274;
  fa 39%nat 800 3625 3274 3678 3273; fa 40%nat 799 3624 3273 3677 3272; fa 41%nat 798 3623 3272 3676 3271;
  fa 42%nat 797 3622 3271 3675 3270; fa 43%nat 796 3621 3270 3674 3269; fa 44%nat 795 3620 3269 3673 3268;
  fa 45%nat 794 3619 3268 3672 3267; fa 46%nat 793 3618 3267 3671 3266; fa 47%nat 792 3617 3266 3670 3265;
  fa 48%nat 791 3616 3265 3669 3264; fa 49%nat 790 3615 3264 3668 3263; fa 50%nat 789 3614 3263 3667 3262;
  fa 51%nat 788 3613 3262 3666 3261; fa 52%nat 787 3612 3261 3665 3260; fa 53%nat 786 3611 3260 3664 3259;
  fa 54%nat 785 3610 3259 3663 3258; fa 55%nat 784 3609 3258 3662 3257; fa 56%nat 783 3608 3257 3661 3256;
  fa 57%nat 782 3607 3256 3660 3255; fa 58%nat 781 3606 3255 3659 3254; fa 59%nat 780 3605 3254 3658 3253;
  fa 60%nat 779 3604 3253 3657 3252; fa 61%nat 778 3603 3252 3656 3251; fa 62%nat 777 3602 3251 3655 3250;
  ha 12%nat 880 3705 13751 3352; fa 13%nat 879 3704 3352 3756 3351; fa 14%nat 878 3703 3351 3755 3350;
  fa 15%nat 877 3702 3350 3754 3349; fa 16%nat 876 3701 3349 3753 3348; fa 17%nat 875 3700 3348 3752 3347;
  fa 18%nat 874 3699 3347 3751 3346; fa 19%nat 873 3698 3346 3750 3345; fa 20%nat 872 3697 3345 3749 3344;
  fa 21%nat 871 3696 3344 3748 3343; fa 22%nat 870 3695 3343 3747 3342; fa 23%nat 869 3694 3342 3746 3341;
  fa 24%nat 868 3693 3341 3745 3340; fa 25%nat 867 3692 3340 3744 3339; fa 26%nat 866 3691 3339 3743 3338;
  fa 27%nat 865 3690 3338 3742 3337; fa 28%nat 864 3689 3337 3741 3336; fa 29%nat 863 3688 3336 3740 3335;
  fa 30%nat 862 3687 3335 3739 3334; fa 31%nat 861 3686 3334 3738 3333; fa 32%nat 860 3685 3333 3737 3332;
  fa 33%nat 859 3684 3332 3736 3331; fa 34%nat 858 3683 3331 3735 3330; fa 35%nat 857 3682 3330 3734 3329;
  fa 36%nat 856 3681 3329 3733 3328; fa 37%nat 855 3680 3328 3732 3327; fa 38%nat 854 3679 3327 3731 3326;
  fa 39%nat 853 3678 3326 3730 3325; fa 40%nat 852 3677 3325 3729 3324; fa 41%nat 851 3676 3324 3728 3323;
  fa 42%nat 850 3675 3323 3727 3322; fa 43%nat 849 3674 3322 3726 3321; fa 44%nat 848 3673 3321 3725 3320;
  fa 45%nat 847 3672 3320 3724 3319; fa 46%nat 846 3671 3319 3723 3318; fa 47%nat 845 3670 3318 3722 3317;
  fa 48%nat 844 3669 3317 3721 3316; fa 49%nat 843 3668 3316 3720 3315; fa 50%nat 842 3667 3315 3719 3314;
  fa 51%nat 841 3666 3314 3718 3313; fa 52%nat 840 3665 3313 3717 3312; fa 53%nat 839 3664 3312 3716 3311;
  fa 54%nat 838 3663 3311 3715 3310; fa 55%nat 837 3662 3310 3714 3309; fa 56%nat 836 3661 3309 3713 3308;
  fa 57%nat 835 3660 3308 3712 3307; fa 58%nat 834 3659 3307 3711 3306; fa 59%nat 833 3658 3306 3710 3305;
  fa 60%nat 832 3657 3305 3709 3304; fa 61%nat 831 3656 3304 3708 3303; fa 62%nat 830 3655 3303 3707 3302;
  ha 13%nat 931 3756 13752 3402; fa 14%nat 930 3755 3402 3806 3401; fa 15%nat 929 3754 3401 3805 3400;
  fa 16%nat 928 3753 3400 3804 3399; fa 17%nat 927 3752 3399 3803 3398; fa 18%nat 926 3751 3398 3802 3397;
  fa 19%nat 925 3750 3397 3801 3396; fa 20%nat 924 3749 3396 3800 3395; fa 21%nat 923 3748 3395 3799 3394;
  fa 22%nat 922 3747 3394 3798 3393; fa 23%nat 921 3746 3393 3797 3392; fa 24%nat 920 3745 3392 3796 3391;
  fa 25%nat 919 3744 3391 3795 3390; fa 26%nat 918 3743 3390 3794 3389; fa 27%nat 917 3742 3389 3793 3388;
  fa 28%nat 916 3741 3388 3792 3387; fa 29%nat 915 3740 3387 3791 3386; fa 30%nat 914 3739 3386 3790 3385;
  fa 31%nat 913 3738 3385 3789 3384; fa 32%nat 912 3737 3384 3788 3383; fa 33%nat 911 3736 3383 3787 3382;
  fa 34%nat 910 3735 3382 3786 3381; fa 35%nat 909 3734 3381 3785 3380; fa 36%nat 908 3733 3380 3784 3379;
  fa 37%nat 907 3732 3379 3783 3378; fa 38%nat 906 3731 3378 3782 3377; fa 39%nat 905 3730 3377 3781 3376;
  fa 40%nat 904 3729 3376 3780 3375; fa 41%nat 903 3728 3375 3779 3374; fa 42%nat 902 3727 3374 3778 3373;
  fa 43%nat 901 3726 3373 3777 3372; fa 44%nat 900 3725 3372 3776 3371; fa 45%nat 899 3724 3371 3775 3370;
  fa 46%nat 898 3723 3370 3774 3369; fa 47%nat 897 3722 3369 3773 3368; fa 48%nat 896 3721 3368 3772 3367;
  fa 49%nat 895 3720 3367 3771 3366; fa 50%nat 894 3719 3366 3770 3365; fa 51%nat 893 3718 3365 3769 3364;
  fa 52%nat 892 3717 3364 3768 3363; fa 53%nat 891 3716 3363 3767 3362; fa 54%nat 890 3715 3362 3766 3361;
  fa 55%nat 889 3714 3361 3765 3360; fa 56%nat 888 3713 3360 3764 3359; fa 57%nat 887 3712 3359 3763 3358;
  fa 58%nat 886 3711 3358 3762 3357; fa 59%nat 885 3710 3357 3761 3356; fa 60%nat 884 3709 3356 3760 3355;
  fa 61%nat 883 3708 3355 3759 3354; fa 62%nat 882 3707 3354 3758 3353; ha 14%nat 981 3806 13753 3451;
  fa 15%nat 980 3805 3451 3855 3450; fa 16%nat 979 3804 3450 3854 3449; fa 17%nat 978 3803 3449 3853 3448;
  ha 15%nat 1030 3855 13754 3499; fa 16%nat 1029 3854 3499 3903 3498; fa 17%nat 1028 3853 3498 3902 3497;
  fa 18%nat 977 3802 3448 3852 3447; fa 19%nat 976 3801 3447 3851 3446; fa 20%nat 975 3800 3446 3850 3445;
  fa 21%nat 974 3799 3445 3849 3444; fa 22%nat 973 3798 3444 3848 3443; fa 23%nat 972 3797 3443 3847 3442;
  fa 24%nat 971 3796 3442 3846 3441; fa 25%nat 970 3795 3441 3845 3440; fa 26%nat 969 3794 3440 3844 3439;
  fa 27%nat 968 3793 3439 3843 3438; fa 28%nat 967 3792 3438 3842 3437; fa 29%nat 966 3791 3437 3841 3436;
  fa 30%nat 965 3790 3436 3840 3435; fa 31%nat 964 3789 3435 3839 3434; fa 32%nat 963 3788 3434 3838 3433;
  fa 33%nat 962 3787 3433 3837 3432; fa 34%nat 961 3786 3432 3836 3431; fa 35%nat 960 3785 3431 3835 3430;
  fa 36%nat 959 3784 3430 3834 3429; fa 37%nat 958 3783 3429 3833 3428; fa 38%nat 957 3782 3428 3832 3427;
  fa 39%nat 956 3781 3427 3831 3426; fa 40%nat 955 3780 3426 3830 3425; fa 41%nat 954 3779 3425 3829 3424;
  fa 42%nat 953 3778 3424 3828 3423; fa 43%nat 952 3777 3423 3827 3422; fa 44%nat 951 3776 3422 3826 3421;
  fa 45%nat 950 3775 3421 3825 3420; fa 46%nat 949 3774 3420 3824 3419; fa 47%nat 948 3773 3419 3823 3418;
  fa 48%nat 947 3772 3418 3822 3417; fa 49%nat 946 3771 3417 3821 3416; fa 50%nat 945 3770 3416 3820 3415;
  fa 51%nat 944 3769 3415 3819 3414; fa 52%nat 943 3768 3414 3818 3413; fa 53%nat 942 3767 3413 3817 3412;
  fa 54%nat 941 3766 3412 3816 3411; fa 55%nat 940 3765 3411 3815 3410; fa 56%nat 939 3764 3410 3814 3409;
  fa 57%nat 938 3763 3409 3813 3408; fa 58%nat 937 3762 3408 3812 3407; fa 59%nat 936 3761 3407 3811 3406;
  fa 60%nat 935 3760 3406 3810 3405; fa 61%nat 934 3759 3405 3809 3404; fa 62%nat 933 3758 3404 3808 3403;
  ha 16%nat 1078 3903 13755 3546; fa 18%nat 1027 3852 3497 3901 3496; fa 17%nat 1077 3902 3546 3950 3545;
  fa 18%nat 1076 3901 3545 3949 3544; fa 19%nat 1026 3851 3496 3900 3495; fa 19%nat 1075 3900 3544 3948 3543;
  fa 20%nat 1025 3850 3495 3899 3494; fa 20%nat 1074 3899 3543 3947 3542; fa 21%nat 1024 3849 3494 3898 3493;
  fa 21%nat 1073 3898 3542 3946 3541; fa 22%nat 1023 3848 3493 3897 3492; fa 22%nat 1072 3897 3541 3945 3540;
  fa 23%nat 1022 3847 3492 3896 3491; fa 23%nat 1071 3896 3540 3944 3539; fa 24%nat 1021 3846 3491 3895 3490;
  fa 25%nat 1020 3845 3490 3894 3489; fa 26%nat 1019 3844 3489 3893 3488; fa 27%nat 1018 3843 3488 3892 3487;
  fa 28%nat 1017 3842 3487 3891 3486; fa 29%nat 1016 3841 3486 3890 3485; fa 30%nat 1015 3840 3485 3889 3484;
  fa 31%nat 1014 3839 3484 3888 3483; fa 32%nat 1013 3838 3483 3887 3482; fa 33%nat 1012 3837 3482 3886 3481;
  fa 34%nat 1011 3836 3481 3885 3480; fa 35%nat 1010 3835 3480 3884 3479; fa 36%nat 1009 3834 3479 3883 3478;
  fa 37%nat 1008 3833 3478 3882 3477; fa 38%nat 1007 3832 3477 3881 3476; fa 39%nat 1006 3831 3476 3880 3475;
  fa 40%nat 1005 3830 3475 3879 3474; fa 41%nat 1004 3829 3474 3878 3473; fa 42%nat 1003 3828 3473 3877 3472;
  fa 43%nat 1002 3827 3472 3876 3471; fa 44%nat 1001 3826 3471 3875 3470; fa 45%nat 1000 3825 3470 3874 3469;
  fa 46%nat 999 3824 3469 3873 3468; fa 47%nat 998 3823 3468 3872 3467; fa 48%nat 997 3822 3467 3871 3466;
  fa 49%nat 996 3821 3466 3870 3465; fa 50%nat 995 3820 3465 3869 3464; fa 51%nat 994 3819 3464 3868 3463;
  fa 52%nat 993 3818 3463 3867 3462; fa 53%nat 992 3817 3462 3866 3461; fa 54%nat 991 3816 3461 3865 3460;
  fa 55%nat 990 3815 3460 3864 3459; fa 56%nat 989 3814 3459 3863 3458; fa 57%nat 988 3813 3458 3862 3457;
  fa 58%nat 987 3812 3457 3861 3456; fa 59%nat 986 3811 3456 3860 3455; fa 60%nat 985 3810 3455 3859 3454;
  fa 61%nat 984 3809 3454 3858 3453; fa 62%nat 983 3808 3453 3857 3452; fa 24%nat 1070 3895 3539 3943 3538;
  fa 25%nat 1069 3894 3538 3942 3537; fa 26%nat 1068 3893 3537 3941 3536; fa 27%nat 1067 3892 3536 3940 3535;
  fa 28%nat 1066 3891 3535 3939 3534; fa 29%nat 1065 3890 3534 3938 3533; fa 30%nat 1064 3889 3533 3937 3532;
  fa 31%nat 1063 3888 3532 3936 3531; fa 32%nat 1062 3887 3531 3935 3530; fa 33%nat 1061 3886 3530 3934 3529;
  fa 34%nat 1060 3885 3529 3933 3528; fa 35%nat 1059 3884 3528 3932 3527; fa 36%nat 1058 3883 3527 3931 3526;
  fa 37%nat 1057 3882 3526 3930 3525; fa 38%nat 1056 3881 3525 3929 3524; fa 39%nat 1055 3880 3524 3928 3523;
  fa 40%nat 1054 3879 3523 3927 3522; fa 41%nat 1053 3878 3522 3926 3521; fa 42%nat 1052 3877 3521 3925 3520;
  fa 43%nat 1051 3876 3520 3924 3519; fa 44%nat 1050 3875 3519 3923 3518; fa 45%nat 1049 3874 3518 3922 3517;
  fa 46%nat 1048 3873 3517 3921 3516; fa 47%nat 1047 3872 3516 3920 3515; fa 48%nat 1046 3871 3515 3919 3514;
  fa 49%nat 1045 3870 3514 3918 3513; fa 50%nat 1044 3869 3513 3917 3512; fa 51%nat 1043 3868 3512 3916 3511;
  fa 52%nat 1042 3867 3511 3915 3510; fa 53%nat 1041 3866 3510 3914 3509; fa 54%nat 1040 3865 3509 3913 3508;
  fa 55%nat 1039 3864 3508 3912 3507; fa 56%nat 1038 3863 3507 3911 3506; fa 57%nat 1037 3862 3506 3910 3505;
  fa 58%nat 1036 3861 3505 3909 3504; fa 59%nat 1035 3860 3504 3908 3503; fa 60%nat 1034 3859 3503 3907 3502;
  fa 61%nat 1033 3858 3502 3906 3501; fa 62%nat 1032 3857 3501 3905 3500; ha 17%nat 1125 3950 13756 3996;
  fa 18%nat 1124 3949 3996 4336 3995; fa 19%nat 1123 3948 3995 4335 3994; fa 20%nat 1122 3947 3994 4334 3993;
  fa 21%nat 1121 3946 3993 4333 3992; fa 22%nat 1120 3945 3992 4332 3991; fa 23%nat 1119 3944 3991 4331 3990;
  fa 24%nat 1118 3943 3990 4330 3989; fa 25%nat 1117 3942 3989 4329 3988; fa 26%nat 1116 3941 3988 4328 3987;
  fa 27%nat 1115 3940 3987 4327 3986; fa 28%nat 1114 3939 3986 4326 3985; fa 29%nat 1113 3938 3985 4325 3984;
  fa 30%nat 1112 3937 3984 4324 3983; fa 31%nat 1111 3936 3983 4323 3982; fa 32%nat 1110 3935 3982 4322 3981;
  fa 33%nat 1109 3934 3981 4321 3980; fa 34%nat 1108 3933 3980 4320 3979; fa 35%nat 1107 3932 3979 4319 3978;
  fa 36%nat 1106 3931 3978 4318 3977; fa 37%nat 1105 3930 3977 4317 3976; fa 38%nat 1104 3929 3976 4316 3975;
  fa 39%nat 1103 3928 3975 4315 3974; fa 40%nat 1102 3927 3974 4314 3973; fa 41%nat 1101 3926 3973 4313 3972;
  fa 42%nat 1100 3925 3972 4312 3971; fa 43%nat 1099 3924 3971 4311 3970; fa 44%nat 1098 3923 3970 4310 3969;
  fa 45%nat 1097 3922 3969 4309 3968; fa 46%nat 1096 3921 3968 4308 3967; fa 47%nat 1095 3920 3967 4307 3966;
  fa 48%nat 1094 3919 3966 4306 3965; fa 49%nat 1093 3918 3965 4305 3964; fa 50%nat 1092 3917 3964 4304 3963;
  fa 51%nat 1091 3916 3963 4303 3962; fa 52%nat 1090 3915 3962 4302 3961; fa 53%nat 1089 3914 3961 4301 3960;
  fa 54%nat 1088 3913 3960 4300 3959; fa 55%nat 1087 3912 3959 4299 3958; fa 56%nat 1086 3911 3958 4298 3957;
  fa 57%nat 1085 3910 3957 4297 3956; fa 58%nat 1084 3909 3956 4296 3955; fa 59%nat 1083 3908 3955 4295 3954;
  fa 60%nat 1082 3907 3954 4294 3953; fa 61%nat 1081 3906 3953 4293 3952; fa 62%nat 1080 3905 3952 4292 3951;
  ha 18%nat 1171 4336 13757 4041; fa 19%nat 1170 4335 4041 4381 4040; fa 20%nat 1169 4334 4040 4380 4039;
  fa 21%nat 1168 4333 4039 4379 4038; fa 22%nat 1167 4332 4038 4378 4037; fa 23%nat 1166 4331 4037 4377 4036;
  fa 24%nat 1165 4330 4036 4376 4035; fa 25%nat 1164 4329 4035 4375 4034; fa 26%nat 1163 4328 4034 4374 4033;
  fa 27%nat 1162 4327 4033 4373 4032; fa 28%nat 1161 4326 4032 4372 4031; fa 29%nat 1160 4325 4031 4371 4030;
  fa 30%nat 1159 4324 4030 4370 4029; fa 31%nat 1158 4323 4029 4369 4028; fa 32%nat 1157 4322 4028 4368 4027;
  fa 33%nat 1156 4321 4027 4367 4026; fa 34%nat 1155 4320 4026 4366 4025; fa 35%nat 1154 4319 4025 4365 4024;
  fa 36%nat 1153 4318 4024 4364 4023; fa 37%nat 1152 4317 4023 4363 4022; fa 38%nat 1151 4316 4022 4362 4021;
  fa 39%nat 1150 4315 4021 4361 4020; fa 40%nat 1149 4314 4020 4360 4019; fa 41%nat 1148 4313 4019 4359 4018;
  fa 42%nat 1147 4312 4018 4358 4017; fa 43%nat 1146 4311 4017 4357 4016; fa 44%nat 1145 4310 4016 4356 4015;
  fa 45%nat 1144 4309 4015 4355 4014; fa 46%nat 1143 4308 4014 4354 4013; fa 47%nat 1142 4307 4013 4353 4012;
  fa 48%nat 1141 4306 4012 4352 4011; fa 49%nat 1140 4305 4011 4351 4010; fa 50%nat 1139 4304 4010 4350 4009;
  fa 51%nat 1138 4303 4009 4349 4008; fa 52%nat 1137 4302 4008 4348 4007; fa 53%nat 1136 4301 4007 4347 4006;
  fa 54%nat 1135 4300 4006 4346 4005; fa 55%nat 1134 4299 4005 4345 4004; fa 56%nat 1133 4298 4004 4344 4003;
  fa 57%nat 1132 4297 4003 4343 4002; fa 58%nat 1131 4296 4002 4342 4001; fa 59%nat 1130 4295 4001 4341 4000;
  fa 60%nat 1129 4294 4000 4340 3999; fa 61%nat 1128 4293 3999 4339 3998; fa 62%nat 1127 4292 3998 4338 3997;
  ha 19%nat 1216 4381 13758 4085; fa 20%nat 1215 4380 4085 4425 4084; fa 21%nat 1214 4379 4084 4424 4083;
  fa 22%nat 1213 4378 4083 4423 4082; fa 23%nat 1212 4377 4082 4422 4081; fa 24%nat 1211 4376 4081 4421 4080;
  fa 25%nat 1210 4375 4080 4420 4079; fa 26%nat 1209 4374 4079 4419 4078; fa 27%nat 1208 4373 4078 4418 4077;
  fa 28%nat 1207 4372 4077 4417 4076; fa 29%nat 1206 4371 4076 4416 4075; fa 30%nat 1205 4370 4075 4415 4074;
  fa 31%nat 1204 4369 4074 4414 4073; fa 32%nat 1203 4368 4073 4413 4072; fa 33%nat 1202 4367 4072 4412 4071;
  fa 34%nat 1201 4366 4071 4411 4070; fa 35%nat 1200 4365 4070 4410 4069; fa 36%nat 1199 4364 4069 4409 4068;
  fa 37%nat 1198 4363 4068 4408 4067; fa 38%nat 1197 4362 4067 4407 4066; fa 39%nat 1196 4361 4066 4406 4065;
  fa 40%nat 1195 4360 4065 4405 4064; fa 41%nat 1194 4359 4064 4404 4063; fa 42%nat 1193 4358 4063 4403 4062;
  fa 43%nat 1192 4357 4062 4402 4061; fa 44%nat 1191 4356 4061 4401 4060; fa 45%nat 1190 4355 4060 4400 4059;
  fa 46%nat 1189 4354 4059 4399 4058; fa 47%nat 1188 4353 4058 4398 4057; fa 48%nat 1187 4352 4057 4397 4056;
  fa 49%nat 1186 4351 4056 4396 4055; fa 50%nat 1185 4350 4055 4395 4054; fa 51%nat 1184 4349 4054 4394 4053;
  fa 52%nat 1183 4348 4053 4393 4052; fa 53%nat 1182 4347 4052 4392 4051; fa 54%nat 1181 4346 4051 4391 4050;
  fa 55%nat 1180 4345 4050 4390 4049; fa 56%nat 1179 4344 4049 4389 4048; fa 57%nat 1178 4343 4048 4388 4047;
  fa 58%nat 1177 4342 4047 4387 4046; fa 59%nat 1176 4341 4046 4386 4045; fa 60%nat 1175 4340 4045 4385 4044;
  fa 61%nat 1174 4339 4044 4384 4043; fa 62%nat 1173 4338 4043 4383 4042; ha 20%nat 1260 4425 13759 4128;
  fa 21%nat 1259 4424 4128 4468 4127; fa 22%nat 1258 4423 4127 4467 4126; fa 23%nat 1257 4422 4126 4466 4125;
  fa 24%nat 1256 4421 4125 4465 4124; fa 25%nat 1255 4420 4124 4464 4123; fa 26%nat 1254 4419 4123 4463 4122;
  fa 27%nat 1253 4418 4122 4462 4121; fa 28%nat 1252 4417 4121 4461 4120; fa 29%nat 1251 4416 4120 4460 4119;
  fa 30%nat 1250 4415 4119 4459 4118; fa 31%nat 1249 4414 4118 4458 4117; fa 32%nat 1248 4413 4117 4457 4116;
  fa 33%nat 1247 4412 4116 4456 4115; fa 34%nat 1246 4411 4115 4455 4114; fa 35%nat 1245 4410 4114 4454 4113;
  fa 36%nat 1244 4409 4113 4453 4112; fa 37%nat 1243 4408 4112 4452 4111; fa 38%nat 1242 4407 4111 4451 4110;
  fa 39%nat 1241 4406 4110 4450 4109; fa 40%nat 1240 4405 4109 4449 4108; fa 41%nat 1239 4404 4108 4448 4107;
  fa 42%nat 1238 4403 4107 4447 4106; fa 43%nat 1237 4402 4106 4446 4105; fa 44%nat 1236 4401 4105 4445 4104;
  fa 45%nat 1235 4400 4104 4444 4103; fa 46%nat 1234 4399 4103 4443 4102; fa 47%nat 1233 4398 4102 4442 4101;
  fa 48%nat 1232 4397 4101 4441 4100; fa 49%nat 1231 4396 4100 4440 4099; fa 50%nat 1230 4395 4099 4439 4098;
  fa 51%nat 1229 4394 4098 4438 4097; fa 52%nat 1228 4393 4097 4437 4096; fa 53%nat 1227 4392 4096 4436 4095;
  fa 54%nat 1226 4391 4095 4435 4094; fa 55%nat 1225 4390 4094 4434 4093; fa 56%nat 1224 4389 4093 4433 4092;
  fa 57%nat 1223 4388 4092 4432 4091; fa 58%nat 1222 4387 4091 4431 4090; fa 59%nat 1221 4386 4090 4430 4089;
  fa 60%nat 1220 4385 4089 4429 4088; fa 61%nat 1219 4384 4088 4428 4087; fa 62%nat 1218 4383 4087 4427 4086;
  ha 21%nat 1303 4468 13760 4170; fa 22%nat 1302 4467 4170 4510 4169; ha 22%nat 1345 4510 13761 4211;
  fa 23%nat 1301 4466 4169 4509 4168; fa 24%nat 1300 4465 4168 4508 4167; fa 25%nat 1299 4464 4167 4507 4166;
  fa 26%nat 1298 4463 4166 4506 4165; fa 27%nat 1297 4462 4165 4505 4164; fa 28%nat 1296 4461 4164 4504 4163;
  fa 29%nat 1295 4460 4163 4503 4162; fa 30%nat 1294 4459 4162 4502 4161; fa 31%nat 1293 4458 4161 4501 4160;
  fa 32%nat 1292 4457 4160 4500 4159; fa 33%nat 1291 4456 4159 4499 4158; fa 34%nat 1290 4455 4158 4498 4157;
  fa 35%nat 1289 4454 4157 4497 4156; fa 36%nat 1288 4453 4156 4496 4155; fa 37%nat 1287 4452 4155 4495 4154;
  fa 38%nat 1286 4451 4154 4494 4153; fa 39%nat 1285 4450 4153 4493 4152; fa 40%nat 1284 4449 4152 4492 4151;
  fa 41%nat 1283 4448 4151 4491 4150; fa 42%nat 1282 4447 4150 4490 4149; fa 43%nat 1281 4446 4149 4489 4148;
  fa 44%nat 1280 4445 4148 4488 4147; fa 45%nat 1279 4444 4147 4487 4146; fa 46%nat 1278 4443 4146 4486 4145;
  fa 47%nat 1277 4442 4145 4485 4144; fa 48%nat 1276 4441 4144 4484 4143; fa 49%nat 1275 4440 4143 4483 4142;
  fa 50%nat 1274 4439 4142 4482 4141; fa 51%nat 1273 4438 4141 4481 4140; fa 52%nat 1272 4437 4140 4480 4139;
  fa 53%nat 1271 4436 4139 4479 4138; fa 54%nat 1270 4435 4138 4478 4137; fa 55%nat 1269 4434 4137 4477 4136;
  fa 56%nat 1268 4433 4136 4476 4135; fa 57%nat 1267 4432 4135 4475 4134; fa 58%nat 1266 4431 4134 4474 4133;
  fa 59%nat 1265 4430 4133 4473 4132; fa 60%nat 1264 4429 4132 4472 4131; fa 61%nat 1263 4428 4131 4471 4130;
  fa 62%nat 1262 4427 4130 4470 4129; fa 23%nat 1344 4509 4211 4551 4210; ha 23%nat 1386 4551 13762 4251;
  fa 24%nat 1343 4508 4210 4550 4209; fa 24%nat 1385 4550 4251 4591 4250; fa 25%nat 1342 4507 4209 4549 4208;
  fa 25%nat 1384 4549 4250 4590 4249; fa 26%nat 1341 4506 4208 4548 4207; fa 27%nat 1340 4505 4207 4547 4206;
  fa 28%nat 1339 4504 4206 4546 4205; fa 29%nat 1338 4503 4205 4545 4204; fa 30%nat 1337 4502 4204 4544 4203;
  fa 31%nat 1336 4501 4203 4543 4202; fa 32%nat 1335 4500 4202 4542 4201; fa 33%nat 1334 4499 4201 4541 4200;
  fa 34%nat 1333 4498 4200 4540 4199; fa 35%nat 1332 4497 4199 4539 4198; fa 36%nat 1331 4496 4198 4538 4197;
  fa 37%nat 1330 4495 4197 4537 4196; fa 38%nat 1329 4494 4196 4536 4195; fa 39%nat 1328 4493 4195 4535 4194;
  fa 40%nat 1327 4492 4194 4534 4193; fa 41%nat 1326 4491 4193 4533 4192; fa 42%nat 1325 4490 4192 4532 4191;
  fa 43%nat 1324 4489 4191 4531 4190; fa 44%nat 1323 4488 4190 4530 4189; fa 45%nat 1322 4487 4189 4529 4188;
  fa 46%nat 1321 4486 4188 4528 4187; fa 47%nat 1320 4485 4187 4527 4186; fa 48%nat 1319 4484 4186 4526 4185;
  fa 49%nat 1318 4483 4185 4525 4184; fa 50%nat 1317 4482 4184 4524 4183; fa 51%nat 1316 4481 4183 4523 4182;
  fa 52%nat 1315 4480 4182 4522 4181; fa 53%nat 1314 4479 4181 4521 4180; fa 54%nat 1313 4478 4180 4520 4179;
  fa 55%nat 1312 4477 4179 4519 4178; fa 56%nat 1311 4476 4178 4518 4177; fa 57%nat 1310 4475 4177 4517 4176;
  fa 58%nat 1309 4474 4176 4516 4175; fa 59%nat 1308 4473 4175 4515 4174; fa 60%nat 1307 4472 4174 4514 4173;
  fa 61%nat 1306 4471 4173 4513 4172; fa 62%nat 1305 4470 4172 4512 4171; ha 24%nat 1426 4591 13763 4290;
  fa 25%nat 1425 4590 4290 4630 4289; fa 26%nat 1383 4548 4249 4589 4248; fa 27%nat 1382 4547 4248 4588 4247;
  fa 28%nat 1381 4546 4247 4587 4246; fa 29%nat 1380 4545 4246 4586 4245; fa 30%nat 1379 4544 4245 4585 4244;
  fa 31%nat 1378 4543 4244 4584 4243; fa 32%nat 1377 4542 4243 4583 4242; fa 33%nat 1376 4541 4242 4582 4241;
  fa 34%nat 1375 4540 4241 4581 4240; fa 35%nat 1374 4539 4240 4580 4239; fa 36%nat 1373 4538 4239 4579 4238;
  fa 37%nat 1372 4537 4238 4578 4237; fa 38%nat 1371 4536 4237 4577 4236; fa 39%nat 1370 4535 4236 4576 4235;
  fa 40%nat 1369 4534 4235 4575 4234; fa 41%nat 1368 4533 4234 4574 4233; fa 42%nat 1367 4532 4233 4573 4232;
  fa 43%nat 1366 4531 4232 4572 4231; fa 44%nat 1365 4530 4231 4571 4230; fa 45%nat 1364 4529 4230 4570 4229;
  fa 46%nat 1363 4528 4229 4569 4228; fa 47%nat 1362 4527 4228 4568 4227; fa 48%nat 1361 4526 4227 4567 4226;
  fa 49%nat 1360 4525 4226 4566 4225; fa 50%nat 1359 4524 4225 4565 4224; fa 51%nat 1358 4523 4224 4564 4223;
  fa 52%nat 1357 4522 4223 4563 4222; fa 53%nat 1356 4521 4222 4562 4221; fa 54%nat 1355 4520 4221 4561 4220;
  fa 55%nat 1354 4519 4220 4560 4219; fa 56%nat 1353 4518 4219 4559 4218; fa 57%nat 1352 4517 4218 4558 4217;
  fa 58%nat 1351 4516 4217 4557 4216; fa 59%nat 1350 4515 4216 4556 4215; fa 60%nat 1349 4514 4215 4555 4214;
  fa 61%nat 1348 4513 4214 4554 4213; fa 62%nat 1347 4512 4213 4553 4212; ha 25%nat 1465 4630 13764 4668;
  fa 26%nat 1424 4589 4289 4629 4288; fa 26%nat 1464 4629 4668 4944 4667; fa 27%nat 1423 4588 4288 4628 4287;
  fa 27%nat 1463 4628 4667 4943 4666; fa 28%nat 1422 4587 4287 4627 4286; fa 28%nat 1462 4627 4666 4942 4665;
  fa 29%nat 1421 4586 4286 4626 4285; fa 29%nat 1461 4626 4665 4941 4664; fa 30%nat 1420 4585 4285 4625 4284;
  fa 30%nat 1460 4625 4664 4940 4663; fa 31%nat 1419 4584 4284 4624 4283; fa 31%nat 1459 4624 4663 4939 4662;
  fa 32%nat 1418 4583 4283 4623 4282; fa 32%nat 1458 4623 4662 4938 4661; fa 33%nat 1417 4582 4282 4622 4281;
  fa 33%nat 1457 4622 4661 4937 4660; fa 34%nat 1416 4581 4281 4621 4280; fa 35%nat 1415 4580 4280 4620 4279;
  fa 36%nat 1414 4579 4279 4619 4278; fa 37%nat 1413 4578 4278 4618 4277; fa 38%nat 1412 4577 4277 4617 4276;
  fa 39%nat 1411 4576 4276 4616 4275; fa 40%nat 1410 4575 4275 4615 4274; fa 41%nat 1409 4574 4274 4614 4273;
  fa 42%nat 1408 4573 4273 4613 4272; fa 43%nat 1407 4572 4272 4612 4271; fa 44%nat 1406 4571 4271 4611 4270;
  fa 45%nat 1405 4570 4270 4610 4269; fa 46%nat 1404 4569 4269 4609 4268; fa 47%nat 1403 4568 4268 4608 4267;
  fa 48%nat 1402 4567 4267 4607 4266; fa 49%nat 1401 4566 4266 4606 4265; fa 50%nat 1400 4565 4265 4605 4264;
  fa 51%nat 1399 4564 4264 4604 4263; fa 52%nat 1398 4563 4263 4603 4262; fa 53%nat 1397 4562 4262 4602 4261;
  fa 54%nat 1396 4561 4261 4601 4260; fa 55%nat 1395 4560 4260 4600 4259; fa 56%nat 1394 4559 4259 4599 4258;
  fa 57%nat 1393 4558 4258 4598 4257; fa 58%nat 1392 4557 4257 4597 4256; fa 59%nat 1391 4556 4256 4596 4255;
  fa 60%nat 1390 4555 4255 4595 4254; fa 61%nat 1389 4554 4254 4594 4253; fa 62%nat 1388 4553 4253 4593 4252;
  fa 34%nat 1456 4621 4660 4936 4659; fa 35%nat 1455 4620 4659 4935 4658; fa 36%nat 1454 4619 4658 4934 4657;
  fa 37%nat 1453 4618 4657 4933 4656; fa 38%nat 1452 4617 4656 4932 4655; fa 39%nat 1451 4616 4655 4931 4654;
  fa 40%nat 1450 4615 4654 4930 4653; fa 41%nat 1449 4614 4653 4929 4652; fa 42%nat 1448 4613 4652 4928 4651;
  fa 43%nat 1447 4612 4651 4927 4650; fa 44%nat 1446 4611 4650 4926 4649; fa 45%nat 1445 4610 4649 4925 4648;
  fa 46%nat 1444 4609 4648 4924 4647; fa 47%nat 1443 4608 4647 4923 4646; fa 48%nat 1442 4607 4646 4922 4645;
  fa 49%nat 1441 4606 4645 4921 4644; fa 50%nat 1440 4605 4644 4920 4643; fa 51%nat 1439 4604 4643 4919 4642;
  fa 52%nat 1438 4603 4642 4918 4641; fa 53%nat 1437 4602 4641 4917 4640; fa 54%nat 1436 4601 4640 4916 4639;
  fa 55%nat 1435 4600 4639 4915 4638; fa 56%nat 1434 4599 4638 4914 4637; fa 57%nat 1433 4598 4637 4913 4636;
  fa 58%nat 1432 4597 4636 4912 4635; fa 59%nat 1431 4596 4635 4911 4634; fa 60%nat 1430 4595 4634 4910 4633;
  fa 61%nat 1429 4594 4633 4909 4632; fa 62%nat 1428 4593 4632 4908 4631; ha 26%nat 1503 4944 13765 4705;
  fa 27%nat 1502 4943 4705 4981 4704; fa 28%nat 1501 4942 4704 4980 4703; fa 29%nat 1500 4941 4703 4979 4702;
  fa 30%nat 1499 4940 4702 4978 4701; fa 31%nat 1498 4939 4701 4977 4700; fa 32%nat 1497 4938 4700 4976 4699;
  fa 33%nat 1496 4937 4699 4975 4698; fa 34%nat 1495 4936 4698 4974 4697; fa 35%nat 1494 4935 4697 4973 4696;
  fa 36%nat 1493 4934 4696 4972 4695; fa 37%nat 1492 4933 4695 4971 4694; fa 38%nat 1491 4932 4694 4970 4693;
  fa 39%nat 1490 4931 4693 4969 4692; fa 40%nat 1489 4930 4692 4968 4691; fa 41%nat 1488 4929 4691 4967 4690;
  fa 42%nat 1487 4928 4690 4966 4689; fa 43%nat 1486 4927 4689 4965 4688; fa 44%nat 1485 4926 4688 4964 4687;
  fa 45%nat 1484 4925 4687 4963 4686; fa 46%nat 1483 4924 4686 4962 4685; fa 47%nat 1482 4923 4685 4961 4684;
  fa 48%nat 1481 4922 4684 4960 4683; fa 49%nat 1480 4921 4683 4959 4682; fa 50%nat 1479 4920 4682 4958 4681;
  fa 51%nat 1478 4919 4681 4957 4680; fa 52%nat 1477 4918 4680 4956 4679; fa 53%nat 1476 4917 4679 4955 4678;
  fa 54%nat 1475 4916 4678 4954 4677; fa 55%nat 1474 4915 4677 4953 4676; fa 56%nat 1473 4914 4676 4952 4675;
  fa 57%nat 1472 4913 4675 4951 4674; fa 58%nat 1471 4912 4674 4950 4673; fa 59%nat 1470 4911 4673 4949 4672;
  fa 60%nat 1469 4910 4672 4948 4671; fa 61%nat 1468 4909 4671 4947 4670; fa 62%nat 1467 4908 4670 4946 4669;
  ha 27%nat 1540 4981 13766 4741; fa 28%nat 1539 4980 4741 5017 4740; fa 29%nat 1538 4979 4740 5016 4739;
  fa 30%nat 1537 4978 4739 5015 4738; fa 31%nat 1536 4977 4738 5014 4737; fa 32%nat 1535 4976 4737 5013 4736;
  fa 33%nat 1534 4975 4736 5012 4735; fa 34%nat 1533 4974 4735 5011 4734; fa 35%nat 1532 4973 4734 5010 4733;
  fa 36%nat 1531 4972 4733 5009 4732; fa 37%nat 1530 4971 4732 5008 4731; fa 38%nat 1529 4970 4731 5007 4730;
  fa 39%nat 1528 4969 4730 5006 4729; fa 40%nat 1527 4968 4729 5005 4728; fa 41%nat 1526 4967 4728 5004 4727;
  fa 42%nat 1525 4966 4727 5003 4726; fa 43%nat 1524 4965 4726 5002 4725; fa 44%nat 1523 4964 4725 5001 4724;
  fa 45%nat 1522 4963 4724 5000 4723; fa 46%nat 1521 4962 4723 4999 4722; fa 47%nat 1520 4961 4722 4998 4721;
  fa 48%nat 1519 4960 4721 4997 4720; fa 49%nat 1518 4959 4720 4996 4719; fa 50%nat 1517 4958 4719 4995 4718;
  fa 51%nat 1516 4957 4718 4994 4717; fa 52%nat 1515 4956 4717 4993 4716; fa 53%nat 1514 4955 4716 4992 4715;
  fa 54%nat 1513 4954 4715 4991 4714; fa 55%nat 1512 4953 4714 4990 4713; fa 56%nat 1511 4952 4713 4989 4712;
  fa 57%nat 1510 4951 4712 4988 4711; fa 58%nat 1509 4950 4711 4987 4710; fa 59%nat 1508 4949 4710 4986 4709;
  fa 60%nat 1507 4948 4709 4985 4708; fa 61%nat 1506 4947 4708 4984 4707; fa 62%nat 1505 4946 4707 4983 4706;
  ha 28%nat 1576 5017 13767 4776; fa 29%nat 1575 5016 4776 5052 4775; fa 30%nat 1574 5015 4775 5051 4774;
  fa 31%nat 1573 5014 4774 5050 4773; fa 32%nat 1572 5013 4773 5049 4772; fa 33%nat 1571 5012 4772 5048 4771;
  fa 34%nat 1570 5011 4771 5047 4770; fa 35%nat 1569 5010 4770 5046 4769; fa 36%nat 1568 5009 4769 5045 4768;
  fa 37%nat 1567 5008 4768 5044 4767; fa 38%nat 1566 5007 4767 5043 4766; fa 39%nat 1565 5006 4766 5042 4765;
  fa 40%nat 1564 5005 4765 5041 4764; fa 41%nat 1563 5004 4764 5040 4763; fa 42%nat 1562 5003 4763 5039 4762;
  fa 43%nat 1561 5002 4762 5038 4761; fa 44%nat 1560 5001 4761 5037 4760; fa 45%nat 1559 5000 4760 5036 4759;
  fa 46%nat 1558 4999 4759 5035 4758; fa 47%nat 1557 4998 4758 5034 4757; fa 48%nat 1556 4997 4757 5033 4756;
  fa 49%nat 1555 4996 4756 5032 4755; fa 50%nat 1554 4995 4755 5031 4754; fa 51%nat 1553 4994 4754 5030 4753;
  fa 52%nat 1552 4993 4753 5029 4752; fa 53%nat 1551 4992 4752 5028 4751; fa 54%nat 1550 4991 4751 5027 4750;
  fa 55%nat 1549 4990 4750 5026 4749; fa 56%nat 1548 4989 4749 5025 4748; fa 57%nat 1547 4988 4748 5024 4747;
  fa 58%nat 1546 4987 4747 5023 4746; fa 59%nat 1545 4986 4746 5022 4745; fa 60%nat 1544 4985 4745 5021 4744;
  fa 61%nat 1543 4984 4744 5020 4743; fa 62%nat 1542 4983 4743 5019 4742; ha 29%nat 1611 5052 13768 4810;
  fa 30%nat 1610 5051 4810 5086 4809; fa 31%nat 1609 5050 4809 5085 4808; fa 32%nat 1608 5049 4808 5084 4807;
  fa 33%nat 1607 5048 4807 5083 4806; fa 34%nat 1606 5047 4806 5082 4805; fa 35%nat 1605 5046 4805 5081 4804;
  fa 36%nat 1604 5045 4804 5080 4803; fa 37%nat 1603 5044 4803 5079 4802; fa 38%nat 1602 5043 4802 5078 4801;
  fa 39%nat 1601 5042 4801 5077 4800; fa 40%nat 1600 5041 4800 5076 4799; fa 41%nat 1599 5040 4799 5075 4798;
  fa 42%nat 1598 5039 4798 5074 4797; fa 43%nat 1597 5038 4797 5073 4796; fa 44%nat 1596 5037 4796 5072 4795;
  fa 45%nat 1595 5036 4795 5071 4794; fa 46%nat 1594 5035 4794 5070 4793; fa 47%nat 1593 5034 4793 5069 4792;
  fa 48%nat 1592 5033 4792 5068 4791; fa 49%nat 1591 5032 4791 5067 4790; fa 50%nat 1590 5031 4790 5066 4789;
  fa 51%nat 1589 5030 4789 5065 4788; fa 52%nat 1588 5029 4788 5064 4787; fa 53%nat 1587 5028 4787 5063 4786;
  fa 54%nat 1586 5027 4786 5062 4785; fa 55%nat 1585 5026 4785 5061 4784; fa 56%nat 1584 5025 4784 5060 4783;
  fa 57%nat 1583 5024 4783 5059 4782; fa 58%nat 1582 5023 4782 5058 4781; fa 59%nat 1581 5022 4781 5057 4780;
  fa 60%nat 1580 5021 4780 5056 4779; fa 61%nat 1579 5020 4779 5055 4778; fa 62%nat 1578 5019 4778 5054 4777;
  ha 30%nat 1645 5086 13769 4843; fa 31%nat 1644 5085 4843 5119 4842; fa 32%nat 1643 5084 4842 5118 4841;
  fa 33%nat 1642 5083 4841 5117 4840; fa 34%nat 1641 5082 4840 5116 4839; fa 35%nat 1640 5081 4839 5115 4838;
  fa 36%nat 1639 5080 4838 5114 4837; fa 37%nat 1638 5079 4837 5113 4836; fa 38%nat 1637 5078 4836 5112 4835;
  fa 39%nat 1636 5077 4835 5111 4834; fa 40%nat 1635 5076 4834 5110 4833; fa 41%nat 1634 5075 4833 5109 4832;
  fa 42%nat 1633 5074 4832 5108 4831; fa 43%nat 1632 5073 4831 5107 4830; fa 44%nat 1631 5072 4830 5106 4829;
  fa 45%nat 1630 5071 4829 5105 4828; fa 46%nat 1629 5070 4828 5104 4827; fa 47%nat 1628 5069 4827 5103 4826;
  fa 48%nat 1627 5068 4826 5102 4825; fa 49%nat 1626 5067 4825 5101 4824; fa 50%nat 1625 5066 4824 5100 4823;
  fa 51%nat 1624 5065 4823 5099 4822; fa 52%nat 1623 5064 4822 5098 4821; fa 53%nat 1622 5063 4821 5097 4820;
  fa 54%nat 1621 5062 4820 5096 4819; fa 55%nat 1620 5061 4819 5095 4818; fa 56%nat 1619 5060 4818 5094 4817;
  fa 57%nat 1618 5059 4817 5093 4816; fa 58%nat 1617 5058 4816 5092 4815; fa 59%nat 1616 5057 4815 5091 4814;
  fa 60%nat 1615 5056 4814 5090 4813; fa 61%nat 1614 5055 4813 5089 4812; fa 62%nat 1613 5054 4812 5088 4811;
  ha 31%nat 1678 5119 13770 4875; fa 32%nat 1677 5118 4875 5151 4874; fa 33%nat 1676 5117 4874 5150 4873;
  fa 34%nat 1675 5116 4873 5149 4872; fa 35%nat 1674 5115 4872 5148 4871; fa 36%nat 1673 5114 4871 5147 4870;
  fa 37%nat 1672 5113 4870 5146 4869; fa 38%nat 1671 5112 4869 5145 4868; fa 39%nat 1670 5111 4868 5144 4867;
  fa 40%nat 1669 5110 4867 5143 4866; fa 41%nat 1668 5109 4866 5142 4865; fa 42%nat 1667 5108 4865 5141 4864;
  fa 43%nat 1666 5107 4864 5140 4863; fa 44%nat 1665 5106 4863 5139 4862; fa 45%nat 1664 5105 4862 5138 4861;
  fa 46%nat 1663 5104 4861 5137 4860; fa 47%nat 1662 5103 4860 5136 4859; fa 48%nat 1661 5102 4859 5135 4858;
  fa 49%nat 1660 5101 4858 5134 4857; fa 50%nat 1659 5100 4857 5133 4856; fa 51%nat 1658 5099 4856 5132 4855;
  fa 52%nat 1657 5098 4855 5131 4854; fa 53%nat 1656 5097 4854 5130 4853; fa 54%nat 1655 5096 4853 5129 4852;
  fa 55%nat 1654 5095 4852 5128 4851; fa 56%nat 1653 5094 4851 5127 4850; fa 57%nat 1652 5093 4850 5126 4849;
  fa 58%nat 1651 5092 4849 5125 4848; fa 59%nat 1650 5091 4848 5124 4847; fa 60%nat 1649 5090 4847 5123 4846;
  fa 61%nat 1648 5089 4846 5122 4845; fa 62%nat 1647 5088 4845 5121 4844; ha 32%nat 1710 5151 13771 4906;
  fa 33%nat 1709 5150 4906 5182 4905; fa 34%nat 1708 5149 4905 5181 4904; fa 35%nat 1707 5148 4904 5180 4903;
  fa 36%nat 1706 5147 4903 5179 4902; fa 37%nat 1705 5146 4902 5178 4901; fa 38%nat 1704 5145 4901 5177 4900;
  fa 39%nat 1703 5144 4900 5176 4899; fa 40%nat 1702 5143 4899 5175 4898; fa 41%nat 1701 5142 4898 5174 4897;
  fa 42%nat 1700 5141 4897 5173 4896; fa 43%nat 1699 5140 4896 5172 4895; fa 44%nat 1698 5139 4895 5171 4894;
  fa 45%nat 1697 5138 4894 5170 4893; fa 46%nat 1696 5137 4893 5169 4892; fa 47%nat 1695 5136 4892 5168 4891;
  fa 48%nat 1694 5135 4891 5167 4890; fa 49%nat 1693 5134 4890 5166 4889; fa 50%nat 1692 5133 4889 5165 4888;
  fa 51%nat 1691 5132 4888 5164 4887; fa 52%nat 1690 5131 4887 5163 4886; fa 53%nat 1689 5130 4886 5162 4885;
  fa 54%nat 1688 5129 4885 5161 4884; fa 55%nat 1687 5128 4884 5160 4883; fa 56%nat 1686 5127 4883 5159 4882;
  fa 57%nat 1685 5126 4882 5158 4881; fa 58%nat 1684 5125 4881 5157 4880; fa 59%nat 1683 5124 4880 5156 4879;
  fa 60%nat 1682 5123 4879 5155 4878; fa 61%nat 1681 5122 4878 5154 4877; fa 62%nat 1680 5121 4877 5153 4876;
  ha 33%nat 1741 5182 13772 5212; fa 34%nat 1740 5181 5212 5424 5211; fa 35%nat 1739 5180 5211 5423 5210;
  fa 36%nat 1738 5179 5210 5422 5209; fa 37%nat 1737 5178 5209 5421 5208; fa 38%nat 1736 5177 5208 5420 5207;
  fa 39%nat 1735 5176 5207 5419 5206; fa 40%nat 1734 5175 5206 5418 5205; fa 41%nat 1733 5174 5205 5417 5204;
  fa 42%nat 1732 5173 5204 5416 5203; fa 43%nat 1731 5172 5203 5415 5202; fa 44%nat 1730 5171 5202 5414 5201;
  fa 45%nat 1729 5170 5201 5413 5200; fa 46%nat 1728 5169 5200 5412 5199; fa 47%nat 1727 5168 5199 5411 5198;
  fa 48%nat 1726 5167 5198 5410 5197; fa 49%nat 1725 5166 5197 5409 5196; fa 50%nat 1724 5165 5196 5408 5195;
  fa 51%nat 1723 5164 5195 5407 5194; fa 52%nat 1722 5163 5194 5406 5193; fa 53%nat 1721 5162 5193 5405 5192;
  fa 54%nat 1720 5161 5192 5404 5191; fa 55%nat 1719 5160 5191 5403 5190; fa 56%nat 1718 5159 5190 5402 5189;
  fa 57%nat 1717 5158 5189 5401 5188; fa 58%nat 1716 5157 5188 5400 5187; fa 59%nat 1715 5156 5187 5399 5186;
  fa 60%nat 1714 5155 5186 5398 5185; fa 61%nat 1713 5154 5185 5397 5184; fa 62%nat 1712 5153 5184 5396 5183;
  ha 34%nat 1771 5424 13773 5241; fa 35%nat 1770 5423 5241 5453 5240; fa 36%nat 1769 5422 5240 5452 5239;
  fa 37%nat 1768 5421 5239 5451 5238; fa 38%nat 1767 5420 5238 5450 5237; fa 39%nat 1766 5419 5237 5449 5236;
  fa 40%nat 1765 5418 5236 5448 5235; fa 41%nat 1764 5417 5235 5447 5234; fa 42%nat 1763 5416 5234 5446 5233;
  fa 43%nat 1762 5415 5233 5445 5232; fa 44%nat 1761 5414 5232 5444 5231; fa 45%nat 1760 5413 5231 5443 5230;
  fa 46%nat 1759 5412 5230 5442 5229; fa 47%nat 1758 5411 5229 5441 5228; fa 48%nat 1757 5410 5228 5440 5227;
  fa 49%nat 1756 5409 5227 5439 5226; fa 50%nat 1755 5408 5226 5438 5225; fa 51%nat 1754 5407 5225 5437 5224;
  fa 52%nat 1753 5406 5224 5436 5223; fa 53%nat 1752 5405 5223 5435 5222; fa 54%nat 1751 5404 5222 5434 5221;
  fa 55%nat 1750 5403 5221 5433 5220; fa 56%nat 1749 5402 5220 5432 5219; fa 57%nat 1748 5401 5219 5431 5218;
  fa 58%nat 1747 5400 5218 5430 5217; fa 59%nat 1746 5399 5217 5429 5216; fa 60%nat 1745 5398 5216 5428 5215;
  fa 61%nat 1744 5397 5215 5427 5214; fa 62%nat 1743 5396 5214 5426 5213; ha 35%nat 1800 5453 13774 5269;
  fa 36%nat 1799 5452 5269 5481 5268; fa 37%nat 1798 5451 5268 5480 5267; fa 38%nat 1797 5450 5267 5479 5266;
  fa 39%nat 1796 5449 5266 5478 5265; fa 40%nat 1795 5448 5265 5477 5264; fa 41%nat 1794 5447 5264 5476 5263;
  fa 42%nat 1793 5446 5263 5475 5262; fa 43%nat 1792 5445 5262 5474 5261; fa 44%nat 1791 5444 5261 5473 5260;
  fa 45%nat 1790 5443 5260 5472 5259; fa 46%nat 1789 5442 5259 5471 5258; fa 47%nat 1788 5441 5258 5470 5257;
  fa 48%nat 1787 5440 5257 5469 5256; fa 49%nat 1786 5439 5256 5468 5255; fa 50%nat 1785 5438 5255 5467 5254;
  fa 51%nat 1784 5437 5254 5466 5253; fa 52%nat 1783 5436 5253 5465 5252; fa 53%nat 1782 5435 5252 5464 5251;
  fa 54%nat 1781 5434 5251 5463 5250; fa 55%nat 1780 5433 5250 5462 5249; fa 56%nat 1779 5432 5249 5461 5248;
  fa 57%nat 1778 5431 5248 5460 5247; fa 58%nat 1777 5430 5247 5459 5246; fa 59%nat 1776 5429 5246 5458 5245;
  fa 60%nat 1775 5428 5245 5457 5244; fa 61%nat 1774 5427 5244 5456 5243; fa 62%nat 1773 5426 5243 5455 5242;
  ha 36%nat 1828 5481 13775 5296; fa 37%nat 1827 5480 5296 5508 5295; fa 38%nat 1826 5479 5295 5507 5294;
  fa 39%nat 1825 5478 5294 5506 5293; fa 40%nat 1824 5477 5293 5505 5292; fa 41%nat 1823 5476 5292 5504 5291;
  fa 42%nat 1822 5475 5291 5503 5290; fa 43%nat 1821 5474 5290 5502 5289; fa 44%nat 1820 5473 5289 5501 5288;
  fa 45%nat 1819 5472 5288 5500 5287; fa 46%nat 1818 5471 5287 5499 5286; fa 47%nat 1817 5470 5286 5498 5285;
  fa 48%nat 1816 5469 5285 5497 5284; fa 49%nat 1815 5468 5284 5496 5283; fa 50%nat 1814 5467 5283 5495 5282;
  fa 51%nat 1813 5466 5282 5494 5281; fa 52%nat 1812 5465 5281 5493 5280; fa 53%nat 1811 5464 5280 5492 5279;
  fa 54%nat 1810 5463 5279 5491 5278; fa 55%nat 1809 5462 5278 5490 5277; fa 56%nat 1808 5461 5277 5489 5276;
  fa 57%nat 1807 5460 5276 5488 5275; fa 58%nat 1806 5459 5275 5487 5274; fa 59%nat 1805 5458 5274 5486 5273;
  fa 60%nat 1804 5457 5273 5485 5272; fa 61%nat 1803 5456 5272 5484 5271; fa 62%nat 1802 5455 5271 5483 5270;
  ha 37%nat 1855 5508 13776 5322; fa 38%nat 1854 5507 5322 5534 5321; fa 39%nat 1853 5506 5321 5533 5320;
  fa 40%nat 1852 5505 5320 5532 5319; fa 41%nat 1851 5504 5319 5531 5318; fa 42%nat 1850 5503 5318 5530 5317;
  fa 43%nat 1849 5502 5317 5529 5316; fa 44%nat 1848 5501 5316 5528 5315; fa 45%nat 1847 5500 5315 5527 5314;
  fa 46%nat 1846 5499 5314 5526 5313; fa 47%nat 1845 5498 5313 5525 5312; fa 48%nat 1844 5497 5312 5524 5311;
  fa 49%nat 1843 5496 5311 5523 5310; fa 50%nat 1842 5495 5310 5522 5309; fa 51%nat 1841 5494 5309 5521 5308;
  fa 52%nat 1840 5493 5308 5520 5307; fa 53%nat 1839 5492 5307 5519 5306; fa 54%nat 1838 5491 5306 5518 5305;
  fa 55%nat 1837 5490 5305 5517 5304; fa 56%nat 1836 5489 5304 5516 5303; fa 57%nat 1835 5488 5303 5515 5302;
  fa 58%nat 1834 5487 5302 5514 5301; fa 59%nat 1833 5486 5301 5513 5300; fa 60%nat 1832 5485 5300 5512 5299;
  fa 61%nat 1831 5484 5299 5511 5298; fa 62%nat 1830 5483 5298 5510 5297; ha 38%nat 1881 5534 13777 5347;
  fa 39%nat 1880 5533 5347 5559 5346; fa 40%nat 1879 5532 5346 5558 5345; fa 41%nat 1878 5531 5345 5557 5344;
  fa 42%nat 1877 5530 5344 5556 5343; fa 43%nat 1876 5529 5343 5555 5342; fa 44%nat 1875 5528 5342 5554 5341;
  fa 45%nat 1874 5527 5341 5553 5340; fa 46%nat 1873 5526 5340 5552 5339; fa 47%nat 1872 5525 5339 5551 5338;
  fa 48%nat 1871 5524 5338 5550 5337; fa 49%nat 1870 5523 5337 5549 5336; fa 50%nat 1869 5522 5336 5548 5335;
  fa 51%nat 1868 5521 5335 5547 5334; fa 52%nat 1867 5520 5334 5546 5333; fa 53%nat 1866 5519 5333 5545 5332;
  fa 54%nat 1865 5518 5332 5544 5331; fa 55%nat 1864 5517 5331 5543 5330; fa 56%nat 1863 5516 5330 5542 5329;
  fa 57%nat 1862 5515 5329 5541 5328; fa 58%nat 1861 5514 5328 5540 5327; fa 59%nat 1860 5513 5327 5539 5326;
  fa 60%nat 1859 5512 5326 5538 5325; fa 61%nat 1858 5511 5325 5537 5324; fa 62%nat 1857 5510 5324 5536 5323;
  ha 39%nat 1906 5559 13778 5371; fa 40%nat 1905 5558 5371 5583 5370; fa 41%nat 1904 5557 5370 5582 5369;
  fa 42%nat 1903 5556 5369 5581 5368; fa 43%nat 1902 5555 5368 5580 5367; fa 44%nat 1901 5554 5367 5579 5366;
  fa 45%nat 1900 5553 5366 5578 5365; fa 46%nat 1899 5552 5365 5577 5364; fa 47%nat 1898 5551 5364 5576 5363;
  fa 48%nat 1897 5550 5363 5575 5362; fa 49%nat 1896 5549 5362 5574 5361; fa 50%nat 1895 5548 5361 5573 5360;
  fa 51%nat 1894 5547 5360 5572 5359; fa 52%nat 1893 5546 5359 5571 5358; fa 53%nat 1892 5545 5358 5570 5357;
  fa 54%nat 1891 5544 5357 5569 5356; fa 55%nat 1890 5543 5356 5568 5355; fa 56%nat 1889 5542 5355 5567 5354;
  fa 57%nat 1888 5541 5354 5566 5353; fa 58%nat 1887 5540 5353 5565 5352; fa 59%nat 1886 5539 5352 5564 5351;
  fa 60%nat 1885 5538 5351 5563 5350; fa 61%nat 1884 5537 5350 5562 5349; fa 62%nat 1883 5536 5349 5561 5348;
  ha 40%nat 1930 5583 13779 5394; fa 41%nat 1929 5582 5394 5606 5393; fa 42%nat 1928 5581 5393 5605 5392;
  fa 43%nat 1927 5580 5392 5604 5391; fa 44%nat 1926 5579 5391 5603 5390; fa 45%nat 1925 5578 5390 5602 5389;
  fa 46%nat 1924 5577 5389 5601 5388; fa 47%nat 1923 5576 5388 5600 5387; fa 48%nat 1922 5575 5387 5599 5386;
  fa 49%nat 1921 5574 5386 5598 5385; fa 50%nat 1920 5573 5385 5597 5384; fa 51%nat 1919 5572 5384 5596 5383;
  fa 52%nat 1918 5571 5383 5595 5382; fa 53%nat 1917 5570 5382 5594 5381; fa 54%nat 1916 5569 5381 5593 5380;
  fa 55%nat 1915 5568 5380 5592 5379; fa 56%nat 1914 5567 5379 5591 5378; fa 57%nat 1913 5566 5378 5590 5377;
  fa 58%nat 1912 5565 5377 5589 5376; fa 59%nat 1911 5564 5376 5588 5375; fa 60%nat 1910 5563 5375 5587 5374;
  fa 61%nat 1909 5562 5374 5586 5373; fa 62%nat 1908 5561 5373 5585 5372; ha 41%nat 1953 5606 13780 5628;
  fa 42%nat 1952 5605 5628 5776 5627; fa 43%nat 1951 5604 5627 5775 5626; fa 44%nat 1950 5603 5626 5774 5625;
  fa 45%nat 1949 5602 5625 5773 5624; fa 46%nat 1948 5601 5624 5772 5623; fa 47%nat 1947 5600 5623 5771 5622;
  fa 48%nat 1946 5599 5622 5770 5621; fa 49%nat 1945 5598 5621 5769 5620; fa 50%nat 1944 5597 5620 5768 5619;
  fa 51%nat 1943 5596 5619 5767 5618; fa 52%nat 1942 5595 5618 5766 5617; fa 53%nat 1941 5594 5617 5765 5616;
  fa 54%nat 1940 5593 5616 5764 5615; fa 55%nat 1939 5592 5615 5763 5614; fa 56%nat 1938 5591 5614 5762 5613;
  fa 57%nat 1937 5590 5613 5761 5612; fa 58%nat 1936 5589 5612 5760 5611; fa 59%nat 1935 5588 5611 5759 5610;
  fa 60%nat 1934 5587 5610 5758 5609; fa 61%nat 1933 5586 5609 5757 5608; fa 62%nat 1932 5585 5608 5756 5607;
  ha 42%nat 1975 5776 13781 5649; fa 43%nat 1974 5775 5649 5797 5648; fa 44%nat 1973 5774 5648 5796 5647;
  fa 45%nat 1972 5773 5647 5795 5646; fa 46%nat 1971 5772 5646 5794 5645; fa 47%nat 1970 5771 5645 5793 5644;
  fa 48%nat 1969 5770 5644 5792 5643; fa 49%nat 1968 5769 5643 5791 5642; fa 50%nat 1967 5768 5642 5790 5641;
  fa 51%nat 1966 5767 5641 5789 5640; fa 52%nat 1965 5766 5640 5788 5639; fa 53%nat 1964 5765 5639 5787 5638;
  fa 54%nat 1963 5764 5638 5786 5637; fa 55%nat 1962 5763 5637 5785 5636; fa 56%nat 1961 5762 5636 5784 5635;
  fa 57%nat 1960 5761 5635 5783 5634; fa 58%nat 1959 5760 5634 5782 5633; fa 59%nat 1958 5759 5633 5781 5632;
  fa 60%nat 1957 5758 5632 5780 5631; fa 61%nat 1956 5757 5631 5779 5630; fa 62%nat 1955 5756 5630 5778 5629;
  ha 43%nat 1996 5797 13782 5669; fa 44%nat 1995 5796 5669 5817 5668; fa 45%nat 1994 5795 5668 5816 5667;
  fa 46%nat 1993 5794 5667 5815 5666; fa 47%nat 1992 5793 5666 5814 5665; fa 48%nat 1991 5792 5665 5813 5664;
  fa 49%nat 1990 5791 5664 5812 5663; fa 50%nat 1989 5790 5663 5811 5662; fa 51%nat 1988 5789 5662 5810 5661;
  fa 52%nat 1987 5788 5661 5809 5660; fa 53%nat 1986 5787 5660 5808 5659; fa 54%nat 1985 5786 5659 5807 5658;
  fa 55%nat 1984 5785 5658 5806 5657; fa 56%nat 1983 5784 5657 5805 5656; fa 57%nat 1982 5783 5656 5804 5655;
  fa 58%nat 1981 5782 5655 5803 5654; fa 59%nat 1980 5781 5654 5802 5653; fa 60%nat 1979 5780 5653 5801 5652;
  fa 61%nat 1978 5779 5652 5800 5651; fa 62%nat 1977 5778 5651 5799 5650; ha 44%nat 2016 5817 13783 5688;
  fa 45%nat 2015 5816 5688 5836 5687; fa 46%nat 2014 5815 5687 5835 5686; fa 47%nat 2013 5814 5686 5834 5685;
  fa 48%nat 2012 5813 5685 5833 5684; fa 49%nat 2011 5812 5684 5832 5683; fa 50%nat 2010 5811 5683 5831 5682;
  fa 51%nat 2009 5810 5682 5830 5681; fa 52%nat 2008 5809 5681 5829 5680; fa 53%nat 2007 5808 5680 5828 5679;
  fa 54%nat 2006 5807 5679 5827 5678; fa 55%nat 2005 5806 5678 5826 5677; fa 56%nat 2004 5805 5677 5825 5676;
  fa 57%nat 2003 5804 5676 5824 5675; fa 58%nat 2002 5803 5675 5823 5674; fa 59%nat 2001 5802 5674 5822 5673;
  fa 60%nat 2000 5801 5673 5821 5672; fa 61%nat 1999 5800 5672 5820 5671; fa 62%nat 1998 5799 5671 5819 5670;
  ha 45%nat 2035 5836 13784 5706; fa 46%nat 2034 5835 5706 5854 5705; fa 47%nat 2033 5834 5705 5853 5704;
  fa 48%nat 2032 5833 5704 5852 5703; fa 49%nat 2031 5832 5703 5851 5702; fa 50%nat 2030 5831 5702 5850 5701;
  fa 51%nat 2029 5830 5701 5849 5700; fa 52%nat 2028 5829 5700 5848 5699; fa 53%nat 2027 5828 5699 5847 5698;
  fa 54%nat 2026 5827 5698 5846 5697; fa 55%nat 2025 5826 5697 5845 5696; fa 56%nat 2024 5825 5696 5844 5695;
  fa 57%nat 2023 5824 5695 5843 5694; fa 58%nat 2022 5823 5694 5842 5693; fa 59%nat 2021 5822 5693 5841 5692;
  fa 60%nat 2020 5821 5692 5840 5691; fa 61%nat 2019 5820 5691 5839 5690; fa 62%nat 2018 5819 5690 5838 5689;
  ha 46%nat 2053 5854 13785 5723; fa 47%nat 2052 5853 5723 5871 5722; fa 48%nat 2051 5852 5722 5870 5721;
  fa 49%nat 2050 5851 5721 5869 5720; fa 50%nat 2049 5850 5720 5868 5719; fa 51%nat 2048 5849 5719 5867 5718;
  fa 52%nat 2047 5848 5718 5866 5717; fa 53%nat 2046 5847 5717 5865 5716; fa 54%nat 2045 5846 5716 5864 5715;
  fa 55%nat 2044 5845 5715 5863 5714; fa 56%nat 2043 5844 5714 5862 5713; fa 57%nat 2042 5843 5713 5861 5712;
  fa 58%nat 2041 5842 5712 5860 5711; fa 59%nat 2040 5841 5711 5859 5710; fa 60%nat 2039 5840 5710 5858 5709;
  fa 61%nat 2038 5839 5709 5857 5708; fa 62%nat 2037 5838 5708 5856 5707; ha 47%nat 2070 5871 13786 5739;
  fa 48%nat 2069 5870 5739 5887 5738; fa 49%nat 2068 5869 5738 5886 5737; fa 50%nat 2067 5868 5737 5885 5736;
  fa 51%nat 2066 5867 5736 5884 5735; fa 52%nat 2065 5866 5735 5883 5734; fa 53%nat 2064 5865 5734 5882 5733;
  fa 54%nat 2063 5864 5733 5881 5732; fa 55%nat 2062 5863 5732 5880 5731; fa 56%nat 2061 5862 5731 5879 5730;
  fa 57%nat 2060 5861 5730 5878 5729; fa 58%nat 2059 5860 5729 5877 5728; fa 59%nat 2058 5859 5728 5876 5727;
  fa 60%nat 2057 5858 5727 5875 5726; fa 61%nat 2056 5857 5726 5874 5725; fa 62%nat 2055 5856 5725 5873 5724;
  ha 48%nat 2086 5887 13787 5754; fa 49%nat 2085 5886 5754 5902 5753; ha 49%nat 2101 5902 13788 5916;
  fa 50%nat 2084 5885 5753 5901 5752; fa 50%nat 2100 5901 5916 6000 5915; fa 51%nat 2083 5884 5752 5900 5751;
  fa 52%nat 2082 5883 5751 5899 5750; fa 53%nat 2081 5882 5750 5898 5749; fa 54%nat 2080 5881 5749 5897 5748;
  fa 55%nat 2079 5880 5748 5896 5747; fa 56%nat 2078 5879 5747 5895 5746; ha 50%nat 2115 6000 13789 5929;
  fa 51%nat 2099 5900 5915 5999 5914; fa 52%nat 2098 5899 5914 5998 5913; fa 53%nat 2097 5898 5913 5997 5912;
  fa 54%nat 2096 5897 5912 5996 5911; fa 55%nat 2095 5896 5911 5995 5910; fa 56%nat 2094 5895 5910 5994 5909;
  fa 57%nat 2077 5878 5746 5894 5745; fa 58%nat 2076 5877 5745 5893 5744; fa 59%nat 2075 5876 5744 5892 5743;
  fa 60%nat 2074 5875 5743 5891 5742; fa 61%nat 2073 5874 5742 5890 5741; fa 62%nat 2072 5873 5741 5889 5740;
  fa 51%nat 2114 5999 5929 6013 5928; fa 52%nat 2113 5998 5928 6012 5927; fa 53%nat 2112 5997 5927 6011 5926;
  fa 54%nat 2111 5996 5926 6010 5925; fa 55%nat 2110 5995 5925 6009 5924; fa 56%nat 2109 5994 5924 6008 5923;
  ha 51%nat 2128 6013 13790 5941; fa 52%nat 2127 6012 5941 6025 5940; fa 53%nat 2126 6011 5940 6024 5939;
  fa 54%nat 2125 6010 5939 6023 5938; fa 55%nat 2124 6009 5938 6022 5937; fa 56%nat 2123 6008 5937 6021 5936;
  ha 52%nat 2140 6025 13791 5952; fa 53%nat 2139 6024 5952 6036 5951; fa 54%nat 2138 6023 5951 6035 5950;
  fa 55%nat 2137 6022 5950 6034 5949; fa 56%nat 2136 6021 5949 6033 5948; fa 57%nat 2093 5894 5909 5993 5908;
  fa 57%nat 2108 5993 5923 6007 5922; fa 58%nat 2092 5893 5908 5992 5907; fa 58%nat 2107 5992 5922 6006 5921;
  fa 59%nat 2091 5892 5907 5991 5906; fa 60%nat 2090 5891 5906 5990 5905; fa 61%nat 2089 5890 5905 5989 5904;
  fa 62%nat 2088 5889 5904 5988 5903; fa 59%nat 2106 5991 5921 6005 5920; fa 60%nat 2105 5990 5920 6004 5919;
  fa 61%nat 2104 5989 5919 6003 5918; fa 62%nat 2103 5988 5918 6002 5917; ha 53%nat 2151 6036 13792 5962;
  fa 54%nat 2150 6035 5962 6046 5961; fa 55%nat 2149 6034 5961 6045 5960; fa 56%nat 2148 6033 5960 6044 5959;
  fa 57%nat 2122 6007 5936 6020 5935; fa 58%nat 2121 6006 5935 6019 5934; fa 59%nat 2120 6005 5934 6018 5933;
  fa 60%nat 2119 6004 5933 6017 5932; fa 61%nat 2118 6003 5932 6016 5931; fa 57%nat 2135 6020 5948 6032 5947;
  fa 58%nat 2134 6019 5947 6031 5946; fa 59%nat 2133 6018 5946 6030 5945; fa 60%nat 2132 6017 5945 6029 5944;
  fa 61%nat 2131 6016 5944 6028 5943; fa 62%nat 2117 6002 5931 6015 5930; fa 62%nat 2130 6015 5943 6027 5942;
  ha 54%nat 2161 6046 13793 5971; fa 55%nat 2160 6045 5971 6055 5970; fa 56%nat 2159 6044 5970 6054 5969;
  ha 55%nat 2170 6055 13794 5979; fa 56%nat 2169 6054 5979 6063 5978; ha 56%nat 2178 6063 13795 5986;
  fa 57%nat 2147 6032 5959 6043 5958; fa 58%nat 2146 6031 5958 6042 5957; fa 59%nat 2145 6030 5957 6041 5956;
  fa 60%nat 2144 6029 5956 6040 5955; fa 61%nat 2143 6028 5955 6039 5954; fa 62%nat 2142 6027 5954 6038 5953;
  fa 57%nat 2158 6043 5969 6053 5968; fa 57%nat 2168 6053 5978 6062 5977; fa 57%nat 2177 6062 5986 6070 5985;
  fa 58%nat 2157 6042 5968 6052 5967; fa 59%nat 2156 6041 5967 6051 5966; fa 60%nat 2155 6040 5966 6050 5965;
  fa 61%nat 2154 6039 5965 6049 5964; fa 58%nat 2167 6052 5977 6061 5976; fa 59%nat 2166 6051 5976 6060 5975;
  fa 60%nat 2165 6050 5975 6059 5974; fa 61%nat 2164 6049 5974 6058 5973; fa 62%nat 2153 6038 5964 6048 5963;
  fa 62%nat 2163 6048 5973 6057 5972; ha 57%nat 2185 6070 13796 6076; fa 58%nat 2176 6061 5985 6069 5984;
  fa 58%nat 2184 6069 6076 6097 6075; ha 58%nat 2191 6097 13797 6081; fa 59%nat 2175 6060 5984 6068 5983;
  fa 59%nat 2183 6068 6075 6096 6074; fa 59%nat 2190 6096 6081 6102 6080; ha 59%nat 2196 6102 13798 6085;
  fa 60%nat 2174 6059 5983 6067 5982; fa 61%nat 2173 6058 5982 6066 5981; fa 62%nat 2172 6057 5981 6065 5980;
  fa 60%nat 2182 6067 6074 6095 6073; fa 60%nat 2189 6095 6080 6101 6079; fa 61%nat 2181 6066 6073 6094 6072;
  fa 61%nat 2188 6094 6079 6100 6078; fa 62%nat 2180 6065 6072 6093 6071; fa 62%nat 2187 6093 6078 6099 6077;
  fa 60%nat 2195 6101 6085 6106 6084; fa 61%nat 2194 6100 6084 6105 6083; ha 60%nat 2200 6106 13799 6088;
  fa 61%nat 2199 6105 6088 6109 6087; fa 62%nat 2193 6099 6083 6104 6082; fa 62%nat 2198 6104 6087 6108 6086;
  ha 61%nat 2203 6109 13800 6090; fa 62%nat 2202 6108 6090 6111 6089; ha 62%nat 2205 6111 13801 6091;
  ha_top 63%nat 191 128 13498; ha_top 63%nat 13498 2207 2675; ha_top 63%nat 254 2675 13257;
  ha_top 63%nat 13257 2269 2737; ha_top 63%nat 316 2737 13020; ha_top 63%nat 13020 2330 2798;
  ha_top 63%nat 377 2798 12787; ha_top 63%nat 12787 2390 2858; ha_top 63%nat 437 2858 12558;
  ha_top 63%nat 12558 2449 2917; ha_top 63%nat 496 2917 12333; ha_top 63%nat 12333 2507 2975;
  ha_top 63%nat 554 2975 12112; ha_top 63%nat 12112 2564 3032; ha_top 63%nat 611 3032 11895;
  ha_top 63%nat 11895 2620 3088; ha_top 63%nat 667 3088 11682; ha_top 63%nat 11682 3143 3547;
  ha_top 63%nat 722 3547 11473; ha_top 63%nat 11473 3197 3601; ha_top 63%nat 776 3601 11268;
  ha_top 63%nat 11268 3250 3654; ha_top 63%nat 829 3654 11067; ha_top 63%nat 11067 3302 3706;
  ha_top 63%nat 881 3706 10870; ha_top 63%nat 10870 3353 3757; ha_top 63%nat 932 3757 10677;
  ha_top 63%nat 10677 3403 3807; ha_top 63%nat 982 3807 10488; ha_top 63%nat 10488 3452 3856;
  ha_top 63%nat 1031 3856 10303; ha_top 63%nat 10303 3500 3904; ha_top 63%nat 1079 3904 10122;
  ha_top 63%nat 10122 3951 4291; ha_top 63%nat 1126 4291 9945; ha_top 63%nat 9945 3997 4337;
  ha_top 63%nat 1172 4337 9772; ha_top 63%nat 9772 4042 4382; ha_top 63%nat 1217 4382 9603;
  ha_top 63%nat 9603 4086 4426; ha_top 63%nat 1261 4426 9438; ha_top 63%nat 9438 4129 4469;
  ha_top 63%nat 1304 4469 9277; ha_top 63%nat 9277 4171 4511; ha_top 63%nat 1346 4511 9120;
  ha_top 63%nat 9120 4212 4552; ha_top 63%nat 1387 4552 8967; ha_top 63%nat 8967 4252 4592;
  ha_top 63%nat 1427 4592 8818; ha_top 63%nat 8818 4631 4907; ha_top 63%nat 1466 4907 8673;
  ha_top 63%nat 8673 4669 4945; ha_top 63%nat 1504 4945 8532; ha_top 63%nat 8532 4706 4982;
  ha_top 63%nat 1541 4982 8395; ha_top 63%nat 8395 4742 5018; ha_top 63%nat 1577 5018 8262;
  ha_top 63%nat 8262 4777 5053; ha_top 63%nat 1612 5053 8133; ha_top 63%nat 8133 4811 5087;
  ha_top 63%nat 1646 5087 8008; ha_top 63%nat 8008 4844 5120; ha_top 63%nat 1679 5120 7887;
  ha_top 63%nat 7887 4876 5152; ha_top 63%nat 1711 5152 7770; ha_top 63%nat 7770 5183 5395;
  ha_top 63%nat 1742 5395 7657; ha_top 63%nat 7657 5213 5425; ha_top 63%nat 1772 5425 7548;
  ha_top 63%nat 7548 5242 5454; ha_top 63%nat 1801 5454 7443; ha_top 63%nat 7443 5270 5482;
  ha_top 63%nat 1829 5482 7342; ha_top 63%nat 7342 5297 5509; ha_top 63%nat 1856 5509 7245;
  ha_top 63%nat 7245 5323 5535; ha_top 63%nat 1882 5535 7152; ha_top 63%nat 7152 5348 5560;
  ha_top 63%nat 1907 5560 7063; ha_top 63%nat 7063 5372 5584; ha_top 63%nat 1931 5584 6978;
  ha_top 63%nat 6978 5607 5755; ha_top 63%nat 1954 5755 6897; ha_top 63%nat 6897 5629 5777;
  ha_top 63%nat 1976 5777 6820; ha_top 63%nat 6820 5650 5798; ha_top 63%nat 1997 5798 6747;
  ha_top 63%nat 6747 5670 5818; ha_top 63%nat 2017 5818 6678; ha_top 63%nat 6678 5689 5837;
  ha_top 63%nat 2036 5837 6613; ha_top 63%nat 6613 5707 5855; ha_top 63%nat 2054 5855 6552;
  ha_top 63%nat 6552 5724 5872; ha_top 63%nat 2071 5872 6495; ha_top 63%nat 6495 5740 5888;
  ha_top 63%nat 2087 5888 6442; ha_top 63%nat 6442 5903 5987; ha_top 63%nat 2102 5987 6393;
  ha_top 63%nat 6393 5917 6001; ha_top 63%nat 2116 6001 6348; ha_top 63%nat 6348 5930 6014;
  ha_top 63%nat 2129 6014 6307; ha_top 63%nat 6307 5942 6026; ha_top 63%nat 2141 6026 6270;
  ha_top 63%nat 6270 5953 6037; ha_top 63%nat 2152 6037 6237; ha_top 63%nat 6237 5963 6047;
  ha_top 63%nat 2162 6047 6208; ha_top 63%nat 6208 5972 6056; ha_top 63%nat 2171 6056 6183;
  ha_top 63%nat 6183 5980 6064; ha_top 63%nat 2179 6064 6162; ha_top 63%nat 6162 6071 6092;
  ha_top 63%nat 2186 6092 6145; ha_top 63%nat 6145 6077 6098; ha_top 63%nat 2192 6098 6132;
  ha_top 63%nat 6132 6082 6103; ha_top 63%nat 2197 6103 6123; ha_top 63%nat 6123 6086 6107;
  ha_top 63%nat 2201 6107 6118; ha_top 63%nat 6118 6089 6110; ha_top 63%nat 2204 6110 6117;
  ha_top 63%nat 6117 6091 6112; ha_top 63%nat 2206 6112 13802].
