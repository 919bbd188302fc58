(** Generated: circuit files of yacl/io/circuit/data, line by line. *)
From Coq Require Import String List.
Import ListNotations.
Open Scope string_scope.

Definition mult64_file : list string := [
"13675 13803";
"2 64 64";
"1 64";
"";
"2 1 127 0 2206 AND";
"2 1 126 1 2204 AND";
"2 1 126 0 2205 AND";
"2 1 125 2 2201 AND";
"2 1 125 1 2202 AND";
"2 1 125 0 2203 AND";
"2 1 124 3 2197 AND";
"2 1 124 2 2198 AND";
"2 1 124 1 2199 AND";
"2 1 124 0 2200 AND";
"2 1 123 4 2192 AND";
"2 1 123 3 2193 AND";
"2 1 123 2 2194 AND";
"2 1 123 1 2195 AND";
"2 1 123 0 2196 AND";
"2 1 122 5 2186 AND";
"2 1 122 4 2187 AND";
"2 1 122 3 2188 AND";
"2 1 122 2 2189 AND";
"2 1 122 1 2190 AND";
"2 1 122 0 2191 AND";
"2 1 121 6 2179 AND";
"2 1 121 5 2180 AND";
"2 1 121 4 2181 AND";
"2 1 121 3 2182 AND";
"2 1 121 2 2183 AND";
"2 1 121 1 2184 AND";
"2 1 121 0 2185 AND";
"2 1 120 7 2171 AND";
"2 1 120 6 2172 AND";
"2 1 120 5 2173 AND";
"2 1 120 4 2174 AND";
"2 1 120 3 2175 AND";
"2 1 120 2 2176 AND";
"2 1 120 1 2177 AND";
"2 1 120 0 2178 AND";
"2 1 119 8 2162 AND";
"2 1 119 7 2163 AND";
"2 1 119 6 2164 AND";
"2 1 119 5 2165 AND";
"2 1 119 4 2166 AND";
"2 1 119 3 2167 AND";
"2 1 119 2 2168 AND";
"2 1 119 1 2169 AND";
"2 1 119 0 2170 AND";
"2 1 118 9 2152 AND";
"2 1 118 8 2153 AND";
"2 1 118 7 2154 AND";
"2 1 118 6 2155 AND";
"2 1 118 5 2156 AND";
"2 1 118 4 2157 AND";
"2 1 118 3 2158 AND";
"2 1 118 2 2159 AND";
"2 1 118 1 2160 AND";
"2 1 118 0 2161 AND";
"2 1 117 10 2141 AND";
"2 1 117 9 2142 AND";
"2 1 117 8 2143 AND";
"2 1 117 7 2144 AND";
"2 1 117 6 2145 AND";
"2 1 117 5 2146 AND";
"2 1 117 4 2147 AND";
"2 1 117 3 2148 AND";
"2 1 117 2 2149 AND";
"2 1 117 1 2150 AND";
"2 1 117 0 2151 AND";
"2 1 116 11 2129 AND";
"2 1 116 10 2130 AND";
"2 1 116 9 2131 AND";
"2 1 116 8 2132 AND";
"2 1 116 7 2133 AND";
"2 1 116 6 2134 AND";
"2 1 116 5 2135 AND";
"2 1 116 4 2136 AND";
"2 1 116 3 2137 AND";
"2 1 116 2 2138 AND";
"2 1 116 1 2139 AND";
"2 1 116 0 2140 AND";
"2 1 115 12 2116 AND";
"2 1 115 11 2117 AND";
"2 1 115 10 2118 AND";
"2 1 115 9 2119 AND";
"2 1 115 8 2120 AND";
"2 1 115 7 2121 AND";
"2 1 115 6 2122 AND";
"2 1 115 5 2123 AND";
"2 1 115 4 2124 AND";
"2 1 115 3 2125 AND";
"2 1 115 2 2126 AND";
"2 1 115 1 2127 AND";
"2 1 115 0 2128 AND";
"2 1 114 13 2102 AND";
"2 1 114 12 2103 AND";
"2 1 114 11 2104 AND";
"2 1 114 10 2105 AND";
"2 1 114 9 2106 AND";
"2 1 114 8 2107 AND";
"2 1 114 7 2108 AND";
"2 1 114 6 2109 AND";
"2 1 114 5 2110 AND";
"2 1 114 4 2111 AND";
"2 1 114 3 2112 AND";
"2 1 114 2 2113 AND";
"2 1 114 1 2114 AND";
"2 1 114 0 2115 AND";
"2 1 113 14 2087 AND";
"2 1 113 13 2088 AND";
"2 1 113 12 2089 AND";
"2 1 113 11 2090 AND";
"2 1 113 10 2091 AND";
"2 1 113 9 2092 AND";
"2 1 113 8 2093 AND";
"2 1 113 7 2094 AND";
"2 1 113 6 2095 AND";
"2 1 113 5 2096 AND";
"2 1 113 4 2097 AND";
"2 1 113 3 2098 AND";
"2 1 113 2 2099 AND";
"2 1 113 1 2100 AND";
"2 1 113 0 2101 AND";
"2 1 112 15 2071 AND";
"2 1 112 14 2072 AND";
"2 1 112 13 2073 AND";
"2 1 112 12 2074 AND";
"2 1 112 11 2075 AND";
"2 1 112 10 2076 AND";
"2 1 112 9 2077 AND";
"2 1 112 8 2078 AND";
"2 1 112 7 2079 AND";
"2 1 112 6 2080 AND";
"2 1 112 5 2081 AND";
"2 1 112 4 2082 AND";
"2 1 112 3 2083 AND";
"2 1 112 2 2084 AND";
"2 1 112 1 2085 AND";
"2 1 112 0 2086 AND";
"2 1 111 16 2054 AND";
"2 1 111 15 2055 AND";
"2 1 111 14 2056 AND";
"2 1 111 13 2057 AND";
"2 1 111 12 2058 AND";
"2 1 111 11 2059 AND";
"2 1 111 10 2060 AND";
"2 1 111 9 2061 AND";
"2 1 111 8 2062 AND";
"2 1 111 7 2063 AND";
"2 1 111 6 2064 AND";
"2 1 111 5 2065 AND";
"2 1 111 4 2066 AND";
"2 1 111 3 2067 AND";
"2 1 111 2 2068 AND";
"2 1 111 1 2069 AND";
"2 1 111 0 2070 AND";
"2 1 110 17 2036 AND";
"2 1 110 16 2037 AND";
"2 1 110 15 2038 AND";
"2 1 110 14 2039 AND";
"2 1 110 13 2040 AND";
"2 1 110 12 2041 AND";
"2 1 110 11 2042 AND";
"2 1 110 10 2043 AND";
"2 1 110 9 2044 AND";
"2 1 110 8 2045 AND";
"2 1 110 7 2046 AND";
"2 1 110 6 2047 AND";
"2 1 110 5 2048 AND";
"2 1 110 4 2049 AND";
"2 1 110 3 2050 AND";
"2 1 110 2 2051 AND";
"2 1 110 1 2052 AND";
"2 1 110 0 2053 AND";
"2 1 109 18 2017 AND";
"2 1 109 17 2018 AND";
"2 1 109 16 2019 AND";
"2 1 109 15 2020 AND";
"2 1 109 14 2021 AND";
"2 1 109 13 2022 AND";
"2 1 109 12 2023 AND";
"2 1 109 11 2024 AND";
"2 1 109 10 2025 AND";
"2 1 109 9 2026 AND";
"2 1 109 8 2027 AND";
"2 1 109 7 2028 AND";
"2 1 109 6 2029 AND";
"2 1 109 5 2030 AND";
"2 1 109 4 2031 AND";
"2 1 109 3 2032 AND";
"2 1 109 2 2033 AND";
"2 1 109 1 2034 AND";
"2 1 109 0 2035 AND";
"2 1 108 19 1997 AND";
"2 1 108 18 1998 AND";
"2 1 108 17 1999 AND";
"2 1 108 16 2000 AND";
"2 1 108 15 2001 AND";
"2 1 108 14 2002 AND";
"2 1 108 13 2003 AND";
"2 1 108 12 2004 AND";
"2 1 108 11 2005 AND";
"2 1 108 10 2006 AND";
"2 1 108 9 2007 AND";
"2 1 108 8 2008 AND";
"2 1 108 7 2009 AND";
"2 1 108 6 2010 AND";
"2 1 108 5 2011 AND";
"2 1 108 4 2012 AND";
"2 1 108 3 2013 AND";
"2 1 108 2 2014 AND";
"2 1 108 1 2015 AND";
"2 1 108 0 2016 AND";
"2 1 107 20 1976 AND";
"2 1 107 19 1977 AND";
"2 1 107 18 1978 AND";
"2 1 107 17 1979 AND";
"2 1 107 16 1980 AND";
"2 1 107 15 1981 AND";
"2 1 107 14 1982 AND";
"2 1 107 13 1983 AND";
"2 1 107 12 1984 AND";
"2 1 107 11 1985 AND";
"2 1 107 10 1986 AND";
"2 1 107 9 1987 AND";
"2 1 107 8 1988 AND";
"2 1 107 7 1989 AND";
"2 1 107 6 1990 AND";
"2 1 107 5 1991 AND";
"2 1 107 4 1992 AND";
"2 1 107 3 1993 AND";
"2 1 107 2 1994 AND";
"2 1 107 1 1995 AND";
"2 1 107 0 1996 AND";
"2 1 106 21 1954 AND";
"2 1 106 20 1955 AND";
"2 1 106 19 1956 AND";
"2 1 106 18 1957 AND";
"2 1 106 17 1958 AND";
"2 1 106 16 1959 AND";
"2 1 106 15 1960 AND";
"2 1 106 14 1961 AND";
"2 1 106 13 1962 AND";
"2 1 106 12 1963 AND";
"2 1 106 11 1964 AND";
"2 1 106 10 1965 AND";
"2 1 106 9 1966 AND";
"2 1 106 8 1967 AND";
"2 1 106 7 1968 AND";
"2 1 106 6 1969 AND";
"2 1 106 5 1970 AND";
"2 1 106 4 1971 AND";
"2 1 106 3 1972 AND";
"2 1 106 2 1973 AND";
"2 1 106 1 1974 AND";
"2 1 106 0 1975 AND";
"2 1 105 22 1931 AND";
"2 1 105 21 1932 AND";
"2 1 105 20 1933 AND";
"2 1 105 19 1934 AND";
"2 1 105 18 1935 AND";
"2 1 105 17 1936 AND";
"2 1 105 16 1937 AND";
"2 1 105 15 1938 AND";
"2 1 105 14 1939 AND";
"2 1 105 13 1940 AND";
"2 1 105 12 1941 AND";
"2 1 105 11 1942 AND";
"2 1 105 10 1943 AND";
"2 1 105 9 1944 AND";
"2 1 105 8 1945 AND";
"2 1 105 7 1946 AND";
"2 1 105 6 1947 AND";
"2 1 105 5 1948 AND";
"2 1 105 4 1949 AND";
"2 1 105 3 1950 AND";
"2 1 105 2 1951 AND";
"2 1 105 1 1952 AND";
"2 1 105 0 1953 AND";
"2 1 104 23 1907 AND";
"2 1 104 22 1908 AND";
"2 1 104 21 1909 AND";
"2 1 104 20 1910 AND";
"2 1 104 19 1911 AND";
"2 1 104 18 1912 AND";
"2 1 104 17 1913 AND";
"2 1 104 16 1914 AND";
"2 1 104 15 1915 AND";
"2 1 104 14 1916 AND";
"2 1 104 13 1917 AND";
"2 1 104 12 1918 AND";
"2 1 104 11 1919 AND";
"2 1 104 10 1920 AND";
"2 1 104 9 1921 AND";
"2 1 104 8 1922 AND";
"2 1 104 7 1923 AND";
"2 1 104 6 1924 AND";
"2 1 104 5 1925 AND";
"2 1 104 4 1926 AND";
"2 1 104 3 1927 AND";
"2 1 104 2 1928 AND";
"2 1 104 1 1929 AND";
"2 1 104 0 1930 AND";
"2 1 103 24 1882 AND";
"2 1 103 23 1883 AND";
"2 1 103 22 1884 AND";
"2 1 103 21 1885 AND";
"2 1 103 20 1886 AND";
"2 1 103 19 1887 AND";
"2 1 103 18 1888 AND";
"2 1 103 17 1889 AND";
"2 1 103 16 1890 AND";
"2 1 103 15 1891 AND";
"2 1 103 14 1892 AND";
"2 1 103 13 1893 AND";
"2 1 103 12 1894 AND";
"2 1 103 11 1895 AND";
"2 1 103 10 1896 AND";
"2 1 103 9 1897 AND";
"2 1 103 8 1898 AND";
"2 1 103 7 1899 AND";
"2 1 103 6 1900 AND";
"2 1 103 5 1901 AND";
"2 1 103 4 1902 AND";
"2 1 103 3 1903 AND";
"2 1 103 2 1904 AND";
"2 1 103 1 1905 AND";
"2 1 103 0 1906 AND";
"2 1 102 25 1856 AND";
"2 1 102 24 1857 AND";
"2 1 102 23 1858 AND";
"2 1 102 22 1859 AND";
"2 1 102 21 1860 AND";
"2 1 102 20 1861 AND";
"2 1 102 19 1862 AND";
"2 1 102 18 1863 AND";
"2 1 102 17 1864 AND";
"2 1 102 16 1865 AND";
"2 1 102 15 1866 AND";
"2 1 102 14 1867 AND";
"2 1 102 13 1868 AND";
"2 1 102 12 1869 AND";
"2 1 102 11 1870 AND";
"2 1 102 10 1871 AND";
"2 1 102 9 1872 AND";
"2 1 102 8 1873 AND";
"2 1 102 7 1874 AND";
"2 1 102 6 1875 AND";
"2 1 102 5 1876 AND";
"2 1 102 4 1877 AND";
"2 1 102 3 1878 AND";
"2 1 102 2 1879 AND";
"2 1 102 1 1880 AND";
"2 1 102 0 1881 AND";
"2 1 101 26 1829 AND";
"2 1 101 25 1830 AND";
"2 1 101 24 1831 AND";
"2 1 101 23 1832 AND";
"2 1 101 22 1833 AND";
"2 1 101 21 1834 AND";
"2 1 101 20 1835 AND";
"2 1 101 19 1836 AND";
"2 1 101 18 1837 AND";
"2 1 101 17 1838 AND";
"2 1 101 16 1839 AND";
"2 1 101 15 1840 AND";
"2 1 101 14 1841 AND";
"2 1 101 13 1842 AND";
"2 1 101 12 1843 AND";
"2 1 101 11 1844 AND";
"2 1 101 10 1845 AND";
"2 1 101 9 1846 AND";
"2 1 101 8 1847 AND";
"2 1 101 7 1848 AND";
"2 1 101 6 1849 AND";
"2 1 101 5 1850 AND";
"2 1 101 4 1851 AND";
"2 1 101 3 1852 AND";
"2 1 101 2 1853 AND";
"2 1 101 1 1854 AND";
"2 1 101 0 1855 AND";
"2 1 100 27 1801 AND";
"2 1 100 26 1802 AND";
"2 1 100 25 1803 AND";
"2 1 100 24 1804 AND";
"2 1 100 23 1805 AND";
"2 1 100 22 1806 AND";
"2 1 100 21 1807 AND";
"2 1 100 20 1808 AND";
"2 1 100 19 1809 AND";
"2 1 100 18 1810 AND";
"2 1 100 17 1811 AND";
"2 1 100 16 1812 AND";
"2 1 100 15 1813 AND";
"2 1 100 14 1814 AND";
"2 1 100 13 1815 AND";
"2 1 100 12 1816 AND";
"2 1 100 11 1817 AND";
"2 1 100 10 1818 AND";
"2 1 100 9 1819 AND";
"2 1 100 8 1820 AND";
"2 1 100 7 1821 AND";
"2 1 100 6 1822 AND";
"2 1 100 5 1823 AND";
"2 1 100 4 1824 AND";
"2 1 100 3 1825 AND";
"2 1 100 2 1826 AND";
"2 1 100 1 1827 AND";
"2 1 100 0 1828 AND";
"2 1 99 28 1772 AND";
"2 1 99 27 1773 AND";
"2 1 99 26 1774 AND";
"2 1 99 25 1775 AND";
"2 1 99 24 1776 AND";
"2 1 99 23 1777 AND";
"2 1 99 22 1778 AND";
"2 1 99 21 1779 AND";
"2 1 99 20 1780 AND";
"2 1 99 19 1781 AND";
"2 1 99 18 1782 AND";
"2 1 99 17 1783 AND";
"2 1 99 16 1784 AND";
"2 1 99 15 1785 AND";
"2 1 99 14 1786 AND";
"2 1 99 13 1787 AND";
"2 1 99 12 1788 AND";
"2 1 99 11 1789 AND";
"2 1 99 10 1790 AND";
"2 1 99 9 1791 AND";
"2 1 99 8 1792 AND";
"2 1 99 7 1793 AND";
"2 1 99 6 1794 AND";
"2 1 99 5 1795 AND";
"2 1 99 4 1796 AND";
"2 1 99 3 1797 AND";
"2 1 99 2 1798 AND";
"2 1 99 1 1799 AND";
"2 1 99 0 1800 AND";
"2 1 98 29 1742 AND";
"2 1 98 28 1743 AND";
"2 1 98 27 1744 AND";
"2 1 98 26 1745 AND";
"2 1 98 25 1746 AND";
"2 1 98 24 1747 AND";
"2 1 98 23 1748 AND";
"2 1 98 22 1749 AND";
"2 1 98 21 1750 AND";
"2 1 98 20 1751 AND";
"2 1 98 19 1752 AND";
"2 1 98 18 1753 AND";
"2 1 98 17 1754 AND";
"2 1 98 16 1755 AND";
"2 1 98 15 1756 AND";
"2 1 98 14 1757 AND";
"2 1 98 13 1758 AND";
"2 1 98 12 1759 AND";
"2 1 98 11 1760 AND";
"2 1 98 10 1761 AND";
"2 1 98 9 1762 AND";
"2 1 98 8 1763 AND";
"2 1 98 7 1764 AND";
"2 1 98 6 1765 AND";
"2 1 98 5 1766 AND";
"2 1 98 4 1767 AND";
"2 1 98 3 1768 AND";
"2 1 98 2 1769 AND";
"2 1 98 1 1770 AND";
"2 1 98 0 1771 AND";
"2 1 97 30 1711 AND";
"2 1 97 29 1712 AND";
"2 1 97 28 1713 AND";
"2 1 97 27 1714 AND";
"2 1 97 26 1715 AND";
"2 1 97 25 1716 AND";
"2 1 97 24 1717 AND";
"2 1 97 23 1718 AND";
"2 1 97 22 1719 AND";
"2 1 97 21 1720 AND";
"2 1 97 20 1721 AND";
"2 1 97 19 1722 AND";
"2 1 97 18 1723 AND";
"2 1 97 17 1724 AND";
"2 1 97 16 1725 AND";
"2 1 97 15 1726 AND";
"2 1 97 14 1727 AND";
"2 1 97 13 1728 AND";
"2 1 97 12 1729 AND";
"2 1 97 11 1730 AND";
"2 1 97 10 1731 AND";
"2 1 97 9 1732 AND";
"2 1 97 8 1733 AND";
"2 1 97 7 1734 AND";
"2 1 97 6 1735 AND";
"2 1 97 5 1736 AND";
"2 1 97 4 1737 AND";
"2 1 97 3 1738 AND";
"2 1 97 2 1739 AND";
"2 1 97 1 1740 AND";
"2 1 97 0 1741 AND";
"2 1 96 31 1679 AND";
"2 1 96 30 1680 AND";
"2 1 96 29 1681 AND";
"2 1 96 28 1682 AND";
"2 1 96 27 1683 AND";
"2 1 96 26 1684 AND";
"2 1 96 25 1685 AND";
"2 1 96 24 1686 AND";
"2 1 96 23 1687 AND";
"2 1 96 22 1688 AND";
"2 1 96 21 1689 AND";
"2 1 96 20 1690 AND";
"2 1 96 19 1691 AND";
"2 1 96 18 1692 AND";
"2 1 96 17 1693 AND";
"2 1 96 16 1694 AND";
"2 1 96 15 1695 AND";
"2 1 96 14 1696 AND";
"2 1 96 13 1697 AND";
"2 1 96 12 1698 AND";
"2 1 96 11 1699 AND";
"2 1 96 10 1700 AND";
"2 1 96 9 1701 AND";
"2 1 96 8 1702 AND";
"2 1 96 7 1703 AND";
"2 1 96 6 1704 AND";
"2 1 96 5 1705 AND";
"2 1 96 4 1706 AND";
"2 1 96 3 1707 AND";
"2 1 96 2 1708 AND";
"2 1 96 1 1709 AND";
"2 1 96 0 1710 AND";
"2 1 95 32 1646 AND";
"2 1 95 31 1647 AND";
"2 1 95 30 1648 AND";
"2 1 95 29 1649 AND";
"2 1 95 28 1650 AND";
"2 1 95 27 1651 AND";
"2 1 95 26 1652 AND";
"2 1 95 25 1653 AND";
"2 1 95 24 1654 AND";
"2 1 95 23 1655 AND";
"2 1 95 22 1656 AND";
"2 1 95 21 1657 AND";
"2 1 95 20 1658 AND";
"2 1 95 19 1659 AND";
"2 1 95 18 1660 AND";
"2 1 95 17 1661 AND";
"2 1 95 16 1662 AND";
"2 1 95 15 1663 AND";
"2 1 95 14 1664 AND";
"2 1 95 13 1665 AND";
"2 1 95 12 1666 AND";
"2 1 95 11 1667 AND";
"2 1 95 10 1668 AND";
"2 1 95 9 1669 AND";
"2 1 95 8 1670 AND";
"2 1 95 7 1671 AND";
"2 1 95 6 1672 AND";
"2 1 95 5 1673 AND";
"2 1 95 4 1674 AND";
"2 1 95 3 1675 AND";
"2 1 95 2 1676 AND";
"2 1 95 1 1677 AND";
"2 1 95 0 1678 AND";
"2 1 94 33 1612 AND";
"2 1 94 32 1613 AND";
"2 1 94 31 1614 AND";
"2 1 94 30 1615 AND";
"2 1 94 29 1616 AND";
"2 1 94 28 1617 AND";
"2 1 94 27 1618 AND";
"2 1 94 26 1619 AND";
"2 1 94 25 1620 AND";
"2 1 94 24 1621 AND";
"2 1 94 23 1622 AND";
"2 1 94 22 1623 AND";
"2 1 94 21 1624 AND";
"2 1 94 20 1625 AND";
"2 1 94 19 1626 AND";
"2 1 94 18 1627 AND";
"2 1 94 17 1628 AND";
"2 1 94 16 1629 AND";
"2 1 94 15 1630 AND";
"2 1 94 14 1631 AND";
"2 1 94 13 1632 AND";
"2 1 94 12 1633 AND";
"2 1 94 11 1634 AND";
"2 1 94 10 1635 AND";
"2 1 94 9 1636 AND";
"2 1 94 8 1637 AND";
"2 1 94 7 1638 AND";
"2 1 94 6 1639 AND";
"2 1 94 5 1640 AND";
"2 1 94 4 1641 AND";
"2 1 94 3 1642 AND";
"2 1 94 2 1643 AND";
"2 1 94 1 1644 AND";
"2 1 94 0 1645 AND";
"2 1 93 34 1577 AND";
"2 1 93 33 1578 AND";
"2 1 93 32 1579 AND";
"2 1 93 31 1580 AND";
"2 1 93 30 1581 AND";
"2 1 93 29 1582 AND";
"2 1 93 28 1583 AND";
"2 1 93 27 1584 AND";
"2 1 93 26 1585 AND";
"2 1 93 25 1586 AND";
"2 1 93 24 1587 AND";
"2 1 93 23 1588 AND";
"2 1 93 22 1589 AND";
"2 1 93 21 1590 AND";
"2 1 93 20 1591 AND";
"2 1 93 19 1592 AND";
"2 1 93 18 1593 AND";
"2 1 93 17 1594 AND";
"2 1 93 16 1595 AND";
"2 1 93 15 1596 AND";
"2 1 93 14 1597 AND";
"2 1 93 13 1598 AND";
"2 1 93 12 1599 AND";
"2 1 93 11 1600 AND";
"2 1 93 10 1601 AND";
"2 1 93 9 1602 AND";
"2 1 93 8 1603 AND";
"2 1 93 7 1604 AND";
"2 1 93 6 1605 AND";
"2 1 93 5 1606 AND";
"2 1 93 4 1607 AND";
"2 1 93 3 1608 AND";
"2 1 93 2 1609 AND";
"2 1 93 1 1610 AND";
"2 1 93 0 1611 AND";
"2 1 92 35 1541 AND";
"2 1 92 34 1542 AND";
"2 1 92 33 1543 AND";
"2 1 92 32 1544 AND";
"2 1 92 31 1545 AND";
"2 1 92 30 1546 AND";
"2 1 92 29 1547 AND";
"2 1 92 28 1548 AND";
"2 1 92 27 1549 AND";
"2 1 92 26 1550 AND";
"2 1 92 25 1551 AND";
"2 1 92 24 1552 AND";
"2 1 92 23 1553 AND";
"2 1 92 22 1554 AND";
"2 1 92 21 1555 AND";
"2 1 92 20 1556 AND";
"2 1 92 19 1557 AND";
"2 1 92 18 1558 AND";
"2 1 92 17 1559 AND";
"2 1 92 16 1560 AND";
"2 1 92 15 1561 AND";
"2 1 92 14 1562 AND";
"2 1 92 13 1563 AND";
"2 1 92 12 1564 AND";
"2 1 92 11 1565 AND";
"2 1 92 10 1566 AND";
"2 1 92 9 1567 AND";
"2 1 92 8 1568 AND";
"2 1 92 7 1569 AND";
"2 1 92 6 1570 AND";
"2 1 92 5 1571 AND";
"2 1 92 4 1572 AND";
"2 1 92 3 1573 AND";
"2 1 92 2 1574 AND";
"2 1 92 1 1575 AND";
"2 1 92 0 1576 AND";
"2 1 91 36 1504 AND";
"2 1 91 35 1505 AND";
"2 1 91 34 1506 AND";
"2 1 91 33 1507 AND";
"2 1 91 32 1508 AND";
"2 1 91 31 1509 AND";
"2 1 91 30 1510 AND";
"2 1 91 29 1511 AND";
"2 1 91 28 1512 AND";
"2 1 91 27 1513 AND";
"2 1 91 26 1514 AND";
"2 1 91 25 1515 AND";
"2 1 91 24 1516 AND";
"2 1 91 23 1517 AND";
"2 1 91 22 1518 AND";
"2 1 91 21 1519 AND";
"2 1 91 20 1520 AND";
"2 1 91 19 1521 AND";
"2 1 91 18 1522 AND";
"2 1 91 17 1523 AND";
"2 1 91 16 1524 AND";
"2 1 91 15 1525 AND";
"2 1 91 14 1526 AND";
"2 1 91 13 1527 AND";
"2 1 91 12 1528 AND";
"2 1 91 11 1529 AND";
"2 1 91 10 1530 AND";
"2 1 91 9 1531 AND";
"2 1 91 8 1532 AND";
"2 1 91 7 1533 AND";
"2 1 91 6 1534 AND";
"2 1 91 5 1535 AND";
"2 1 91 4 1536 AND";
"2 1 91 3 1537 AND";
"2 1 91 2 1538 AND";
"2 1 91 1 1539 AND";
"2 1 91 0 1540 AND";
"2 1 90 37 1466 AND";
"2 1 90 36 1467 AND";
"2 1 90 35 1468 AND";
"2 1 90 34 1469 AND";
"2 1 90 33 1470 AND";
"2 1 90 32 1471 AND";
"2 1 90 31 1472 AND";
"2 1 90 30 1473 AND";
"2 1 90 29 1474 AND";
"2 1 90 28 1475 AND";
"2 1 90 27 1476 AND";
"2 1 90 26 1477 AND";
"2 1 90 25 1478 AND";
"2 1 90 24 1479 AND";
"2 1 90 23 1480 AND";
"2 1 90 22 1481 AND";
"2 1 90 21 1482 AND";
"2 1 90 20 1483 AND";
"2 1 90 19 1484 AND";
"2 1 90 18 1485 AND";
"2 1 90 17 1486 AND";
"2 1 90 16 1487 AND";
"2 1 90 15 1488 AND";
"2 1 90 14 1489 AND";
"2 1 90 13 1490 AND";
"2 1 90 12 1491 AND";
"2 1 90 11 1492 AND";
"2 1 90 10 1493 AND";
"2 1 90 9 1494 AND";
"2 1 90 8 1495 AND";
"2 1 90 7 1496 AND";
"2 1 90 6 1497 AND";
"2 1 90 5 1498 AND";
"2 1 90 4 1499 AND";
"2 1 90 3 1500 AND";
"2 1 90 2 1501 AND";
"2 1 90 1 1502 AND";
"2 1 90 0 1503 AND";
"2 1 89 38 1427 AND";
"2 1 89 37 1428 AND";
"2 1 89 36 1429 AND";
"2 1 89 35 1430 AND";
"2 1 89 34 1431 AND";
"2 1 89 33 1432 AND";
"2 1 89 32 1433 AND";
"2 1 89 31 1434 AND";
"2 1 89 30 1435 AND";
"2 1 89 29 1436 AND";
"2 1 89 28 1437 AND";
"2 1 89 27 1438 AND";
"2 1 89 26 1439 AND";
"2 1 89 25 1440 AND";
"2 1 89 24 1441 AND";
"2 1 89 23 1442 AND";
"2 1 89 22 1443 AND";
"2 1 89 21 1444 AND";
"2 1 89 20 1445 AND";
"2 1 89 19 1446 AND";
"2 1 89 18 1447 AND";
"2 1 89 17 1448 AND";
"2 1 89 16 1449 AND";
"2 1 89 15 1450 AND";
"2 1 89 14 1451 AND";
"2 1 89 13 1452 AND";
"2 1 89 12 1453 AND";
"2 1 89 11 1454 AND";
"2 1 89 10 1455 AND";
"2 1 89 9 1456 AND";
"2 1 89 8 1457 AND";
"2 1 89 7 1458 AND";
"2 1 89 6 1459 AND";
"2 1 89 5 1460 AND";
"2 1 89 4 1461 AND";
"2 1 89 3 1462 AND";
"2 1 89 2 1463 AND";
"2 1 89 1 1464 AND";
"2 1 89 0 1465 AND";
"2 1 88 39 1387 AND";
"2 1 88 38 1388 AND";
"2 1 88 37 1389 AND";
"2 1 88 36 1390 AND";
"2 1 88 35 1391 AND";
"2 1 88 34 1392 AND";
"2 1 88 33 1393 AND";
"2 1 88 32 1394 AND";
"2 1 88 31 1395 AND";
"2 1 88 30 1396 AND";
"2 1 88 29 1397 AND";
"2 1 88 28 1398 AND";
"2 1 88 27 1399 AND";
"2 1 88 26 1400 AND";
"2 1 88 25 1401 AND";
"2 1 88 24 1402 AND";
"2 1 88 23 1403 AND";
"2 1 88 22 1404 AND";
"2 1 88 21 1405 AND";
"2 1 88 20 1406 AND";
"2 1 88 19 1407 AND";
"2 1 88 18 1408 AND";
"2 1 88 17 1409 AND";
"2 1 88 16 1410 AND";
"2 1 88 15 1411 AND";
"2 1 88 14 1412 AND";
"2 1 88 13 1413 AND";
"2 1 88 12 1414 AND";
"2 1 88 11 1415 AND";
"2 1 88 10 1416 AND";
"2 1 88 9 1417 AND";
"2 1 88 8 1418 AND";
"2 1 88 7 1419 AND";
"2 1 88 6 1420 AND";
"2 1 88 5 1421 AND";
"2 1 88 4 1422 AND";
"2 1 88 3 1423 AND";
"2 1 88 2 1424 AND";
"2 1 88 1 1425 AND";
"2 1 88 0 1426 AND";
"2 1 87 40 1346 AND";
"2 1 87 39 1347 AND";
"2 1 87 38 1348 AND";
"2 1 87 37 1349 AND";
"2 1 87 36 1350 AND";
"2 1 87 35 1351 AND";
"2 1 87 34 1352 AND";
"2 1 87 33 1353 AND";
"2 1 87 32 1354 AND";
"2 1 87 31 1355 AND";
"2 1 87 30 1356 AND";
"2 1 87 29 1357 AND";
"2 1 87 28 1358 AND";
"2 1 87 27 1359 AND";
"2 1 87 26 1360 AND";
"2 1 87 25 1361 AND";
"2 1 87 24 1362 AND";
"2 1 87 23 1363 AND";
"2 1 87 22 1364 AND";
"2 1 87 21 1365 AND";
"2 1 87 20 1366 AND";
"2 1 87 19 1367 AND";
"2 1 87 18 1368 AND";
"2 1 87 17 1369 AND";
"2 1 87 16 1370 AND";
"2 1 87 15 1371 AND";
"2 1 87 14 1372 AND";
"2 1 87 13 1373 AND";
"2 1 87 12 1374 AND";
"2 1 87 11 1375 AND";
"2 1 87 10 1376 AND";
"2 1 87 9 1377 AND";
"2 1 87 8 1378 AND";
"2 1 87 7 1379 AND";
"2 1 87 6 1380 AND";
"2 1 87 5 1381 AND";
"2 1 87 4 1382 AND";
"2 1 87 3 1383 AND";
"2 1 87 2 1384 AND";
"2 1 87 1 1385 AND";
"2 1 87 0 1386 AND";
"2 1 86 41 1304 AND";
"2 1 86 40 1305 AND";
"2 1 86 39 1306 AND";
"2 1 86 38 1307 AND";
"2 1 86 37 1308 AND";
"2 1 86 36 1309 AND";
"2 1 86 35 1310 AND";
"2 1 86 34 1311 AND";
"2 1 86 33 1312 AND";
"2 1 86 32 1313 AND";
"2 1 86 31 1314 AND";
"2 1 86 30 1315 AND";
"2 1 86 29 1316 AND";
"2 1 86 28 1317 AND";
"2 1 86 27 1318 AND";
"2 1 86 26 1319 AND";
"2 1 86 25 1320 AND";
"2 1 86 24 1321 AND";
"2 1 86 23 1322 AND";
"2 1 86 22 1323 AND";
"2 1 86 21 1324 AND";
"2 1 86 20 1325 AND";
"2 1 86 19 1326 AND";
"2 1 86 18 1327 AND";
"2 1 86 17 1328 AND";
"2 1 86 16 1329 AND";
"2 1 86 15 1330 AND";
"2 1 86 14 1331 AND";
"2 1 86 13 1332 AND";
"2 1 86 12 1333 AND";
"2 1 86 11 1334 AND";
"2 1 86 10 1335 AND";
"2 1 86 9 1336 AND";
"2 1 86 8 1337 AND";
"2 1 86 7 1338 AND";
"2 1 86 6 1339 AND";
"2 1 86 5 1340 AND";
"2 1 86 4 1341 AND";
"2 1 86 3 1342 AND";
"2 1 86 2 1343 AND";
"2 1 86 1 1344 AND";
"2 1 86 0 1345 AND";
"2 1 85 42 1261 AND";
"2 1 85 41 1262 AND";
"2 1 85 40 1263 AND";
"2 1 85 39 1264 AND";
"2 1 85 38 1265 AND";
"2 1 85 37 1266 AND";
"2 1 85 36 1267 AND";
"2 1 85 35 1268 AND";
"2 1 85 34 1269 AND";
"2 1 85 33 1270 AND";
"2 1 85 32 1271 AND";
"2 1 85 31 1272 AND";
"2 1 85 30 1273 AND";
"2 1 85 29 1274 AND";
"2 1 85 28 1275 AND";
"2 1 85 27 1276 AND";
"2 1 85 26 1277 AND";
"2 1 85 25 1278 AND";
"2 1 85 24 1279 AND";
"2 1 85 23 1280 AND";
"2 1 85 22 1281 AND";
"2 1 85 21 1282 AND";
"2 1 85 20 1283 AND";
"2 1 85 19 1284 AND";
"2 1 85 18 1285 AND";
"2 1 85 17 1286 AND";
"2 1 85 16 1287 AND";
"2 1 85 15 1288 AND";
"2 1 85 14 1289 AND";
"2 1 85 13 1290 AND";
"2 1 85 12 1291 AND";
"2 1 85 11 1292 AND";
"2 1 85 10 1293 AND";
"2 1 85 9 1294 AND";
"2 1 85 8 1295 AND";
"2 1 85 7 1296 AND";
"2 1 85 6 1297 AND";
"2 1 85 5 1298 AND";
"2 1 85 4 1299 AND";
"2 1 85 3 1300 AND";
"2 1 85 2 1301 AND";
"2 1 85 1 1302 AND";
"2 1 85 0 1303 AND";
"2 1 84 43 1217 AND";
"2 1 84 42 1218 AND";
"2 1 84 41 1219 AND";
"2 1 84 40 1220 AND";
"2 1 84 39 1221 AND";
"2 1 84 38 1222 AND";
"2 1 84 37 1223 AND";
"2 1 84 36 1224 AND";
"2 1 84 35 1225 AND";
"2 1 84 34 1226 AND";
"2 1 84 33 1227 AND";
"2 1 84 32 1228 AND";
"2 1 84 31 1229 AND";
"2 1 84 30 1230 AND";
"2 1 84 29 1231 AND";
"2 1 84 28 1232 AND";
"2 1 84 27 1233 AND";
"2 1 84 26 1234 AND";
"2 1 84 25 1235 AND";
"2 1 84 24 1236 AND";
"2 1 84 23 1237 AND";
"2 1 84 22 1238 AND";
"2 1 84 21 1239 AND";
"2 1 84 20 1240 AND";
"2 1 84 19 1241 AND";
"2 1 84 18 1242 AND";
"2 1 84 17 1243 AND";
"2 1 84 16 1244 AND";
"2 1 84 15 1245 AND";
"2 1 84 14 1246 AND";
"2 1 84 13 1247 AND";
"2 1 84 12 1248 AND";
"2 1 84 11 1249 AND";
"2 1 84 10 1250 AND";
"2 1 84 9 1251 AND";
"2 1 84 8 1252 AND";
"2 1 84 7 1253 AND";
"2 1 84 6 1254 AND";
"2 1 84 5 1255 AND";
"2 1 84 4 1256 AND";
"2 1 84 3 1257 AND";
"2 1 84 2 1258 AND";
"2 1 84 1 1259 AND";
"2 1 84 0 1260 AND";
"2 1 83 44 1172 AND";
"2 1 83 43 1173 AND";
"2 1 83 42 1174 AND";
"2 1 83 41 1175 AND";
"2 1 83 40 1176 AND";
"2 1 83 39 1177 AND";
"2 1 83 38 1178 AND";
"2 1 83 37 1179 AND";
"2 1 83 36 1180 AND";
"2 1 83 35 1181 AND";
"2 1 83 34 1182 AND";
"2 1 83 33 1183 AND";
"2 1 83 32 1184 AND";
"2 1 83 31 1185 AND";
"2 1 83 30 1186 AND";
"2 1 83 29 1187 AND";
"2 1 83 28 1188 AND";
"2 1 83 27 1189 AND";
"2 1 83 26 1190 AND";
"2 1 83 25 1191 AND";
"2 1 83 24 1192 AND";
"2 1 83 23 1193 AND";
"2 1 83 22 1194 AND";
"2 1 83 21 1195 AND";
"2 1 83 20 1196 AND";
"2 1 83 19 1197 AND";
"2 1 83 18 1198 AND";
"2 1 83 17 1199 AND";
"2 1 83 16 1200 AND";
"2 1 83 15 1201 AND";
"2 1 83 14 1202 AND";
"2 1 83 13 1203 AND";
"2 1 83 12 1204 AND";
"2 1 83 11 1205 AND";
"2 1 83 10 1206 AND";
"2 1 83 9 1207 AND";
"2 1 83 8 1208 AND";
"2 1 83 7 1209 AND";
"2 1 83 6 1210 AND";
"2 1 83 5 1211 AND";
"2 1 83 4 1212 AND";
"2 1 83 3 1213 AND";
"2 1 83 2 1214 AND";
"2 1 83 1 1215 AND";
"2 1 83 0 1216 AND";
"2 1 82 45 1126 AND";
"2 1 82 44 1127 AND";
"2 1 82 43 1128 AND";
"2 1 82 42 1129 AND";
"2 1 82 41 1130 AND";
"2 1 82 40 1131 AND";
"2 1 82 39 1132 AND";
"2 1 82 38 1133 AND";
"2 1 82 37 1134 AND";
"2 1 82 36 1135 AND";
"2 1 82 35 1136 AND";
"2 1 82 34 1137 AND";
"2 1 82 33 1138 AND";
"2 1 82 32 1139 AND";
"2 1 82 31 1140 AND";
"2 1 82 30 1141 AND";
"2 1 82 29 1142 AND";
"2 1 82 28 1143 AND";
"2 1 82 27 1144 AND";
"2 1 82 26 1145 AND";
"2 1 82 25 1146 AND";
"2 1 82 24 1147 AND";
"2 1 82 23 1148 AND";
"2 1 82 22 1149 AND";
"2 1 82 21 1150 AND";
"2 1 82 20 1151 AND";
"2 1 82 19 1152 AND";
"2 1 82 18 1153 AND";
"2 1 82 17 1154 AND";
"2 1 82 16 1155 AND";
"2 1 82 15 1156 AND";
"2 1 82 14 1157 AND";
"2 1 82 13 1158 AND";
"2 1 82 12 1159 AND";
"2 1 82 11 1160 AND";
"2 1 82 10 1161 AND";
"2 1 82 9 1162 AND";
"2 1 82 8 1163 AND";
"2 1 82 7 1164 AND";
"2 1 82 6 1165 AND";
"2 1 82 5 1166 AND";
"2 1 82 4 1167 AND";
"2 1 82 3 1168 AND";
"2 1 82 2 1169 AND";
"2 1 82 1 1170 AND";
"2 1 82 0 1171 AND";
"2 1 81 46 1079 AND";
"2 1 81 45 1080 AND";
"2 1 81 44 1081 AND";
"2 1 81 43 1082 AND";
"2 1 81 42 1083 AND";
"2 1 81 41 1084 AND";
"2 1 81 40 1085 AND";
"2 1 81 39 1086 AND";
"2 1 81 38 1087 AND";
"2 1 81 37 1088 AND";
"2 1 81 36 1089 AND";
"2 1 81 35 1090 AND";
"2 1 81 34 1091 AND";
"2 1 81 33 1092 AND";
"2 1 81 32 1093 AND";
"2 1 81 31 1094 AND";
"2 1 81 30 1095 AND";
"2 1 81 29 1096 AND";
"2 1 81 28 1097 AND";
"2 1 81 27 1098 AND";
"2 1 81 26 1099 AND";
"2 1 81 25 1100 AND";
"2 1 81 24 1101 AND";
"2 1 81 23 1102 AND";
"2 1 81 22 1103 AND";
"2 1 81 21 1104 AND";
"2 1 81 20 1105 AND";
"2 1 81 19 1106 AND";
"2 1 81 18 1107 AND";
"2 1 81 17 1108 AND";
"2 1 81 16 1109 AND";
"2 1 81 15 1110 AND";
"2 1 81 14 1111 AND";
"2 1 81 13 1112 AND";
"2 1 81 12 1113 AND";
"2 1 81 11 1114 AND";
"2 1 81 10 1115 AND";
"2 1 81 9 1116 AND";
"2 1 81 8 1117 AND";
"2 1 81 7 1118 AND";
"2 1 81 6 1119 AND";
"2 1 81 5 1120 AND";
"2 1 81 4 1121 AND";
"2 1 81 3 1122 AND";
"2 1 81 2 1123 AND";
"2 1 81 1 1124 AND";
"2 1 81 0 1125 AND";
"2 1 80 47 1031 AND";
"2 1 80 46 1032 AND";
"2 1 80 45 1033 AND";
"2 1 80 44 1034 AND";
"2 1 80 43 1035 AND";
"2 1 80 42 1036 AND";
"2 1 80 41 1037 AND";
"2 1 80 40 1038 AND";
"2 1 80 39 1039 AND";
"2 1 80 38 1040 AND";
"2 1 80 37 1041 AND";
"2 1 80 36 1042 AND";
"2 1 80 35 1043 AND";
"2 1 80 34 1044 AND";
"2 1 80 33 1045 AND";
"2 1 80 32 1046 AND";
"2 1 80 31 1047 AND";
"2 1 80 30 1048 AND";
"2 1 80 29 1049 AND";
"2 1 80 28 1050 AND";
"2 1 80 27 1051 AND";
"2 1 80 26 1052 AND";
"2 1 80 25 1053 AND";
"2 1 80 24 1054 AND";
"2 1 80 23 1055 AND";
"2 1 80 22 1056 AND";
"2 1 80 21 1057 AND";
"2 1 80 20 1058 AND";
"2 1 80 19 1059 AND";
"2 1 80 18 1060 AND";
"2 1 80 17 1061 AND";
"2 1 80 16 1062 AND";
"2 1 80 15 1063 AND";
"2 1 80 14 1064 AND";
"2 1 80 13 1065 AND";
"2 1 80 12 1066 AND";
"2 1 80 11 1067 AND";
"2 1 80 10 1068 AND";
"2 1 80 9 1069 AND";
"2 1 80 8 1070 AND";
"2 1 80 7 1071 AND";
"2 1 80 6 1072 AND";
"2 1 80 5 1073 AND";
"2 1 80 4 1074 AND";
"2 1 80 3 1075 AND";
"2 1 80 2 1076 AND";
"2 1 80 1 1077 AND";
"2 1 80 0 1078 AND";
"2 1 79 48 982 AND";
"2 1 79 47 983 AND";
"2 1 79 46 984 AND";
"2 1 79 45 985 AND";
"2 1 79 44 986 AND";
"2 1 79 43 987 AND";
"2 1 79 42 988 AND";
"2 1 79 41 989 AND";
"2 1 79 40 990 AND";
"2 1 79 39 991 AND";
"2 1 79 38 992 AND";
"2 1 79 37 993 AND";
"2 1 79 36 994 AND";
"2 1 79 35 995 AND";
"2 1 79 34 996 AND";
"2 1 79 33 997 AND";
"2 1 79 32 998 AND";
"2 1 79 31 999 AND";
"2 1 79 30 1000 AND";
"2 1 79 29 1001 AND";
"2 1 79 28 1002 AND";
"2 1 79 27 1003 AND";
"2 1 79 26 1004 AND";
"2 1 79 25 1005 AND";
"2 1 79 24 1006 AND";
"2 1 79 23 1007 AND";
"2 1 79 22 1008 AND";
"2 1 79 21 1009 AND";
"2 1 79 20 1010 AND";
"2 1 79 19 1011 AND";
"2 1 79 18 1012 AND";
"2 1 79 17 1013 AND";
"2 1 79 16 1014 AND";
"2 1 79 15 1015 AND";
"2 1 79 14 1016 AND";
"2 1 79 13 1017 AND";
"2 1 79 12 1018 AND";
"2 1 79 11 1019 AND";
"2 1 79 10 1020 AND";
"2 1 79 9 1021 AND";
"2 1 79 8 1022 AND";
"2 1 79 7 1023 AND";
"2 1 79 6 1024 AND";
"2 1 79 5 1025 AND";
"2 1 79 4 1026 AND";
"2 1 79 3 1027 AND";
"2 1 79 2 1028 AND";
"2 1 79 1 1029 AND";
"2 1 79 0 1030 AND";
"2 1 78 49 932 AND";
"2 1 78 48 933 AND";
"2 1 78 47 934 AND";
"2 1 78 46 935 AND";
"2 1 78 45 936 AND";
"2 1 78 44 937 AND";
"2 1 78 43 938 AND";
"2 1 78 42 939 AND";
"2 1 78 41 940 AND";
"2 1 78 40 941 AND";
"2 1 78 39 942 AND";
"2 1 78 38 943 AND";
"2 1 78 37 944 AND";
"2 1 78 36 945 AND";
"2 1 78 35 946 AND";
"2 1 78 34 947 AND";
"2 1 78 33 948 AND";
"2 1 78 32 949 AND";
"2 1 78 31 950 AND";
"2 1 78 30 951 AND";
"2 1 78 29 952 AND";
"2 1 78 28 953 AND";
"2 1 78 27 954 AND";
"2 1 78 26 955 AND";
"2 1 78 25 956 AND";
"2 1 78 24 957 AND";
"2 1 78 23 958 AND";
"2 1 78 22 959 AND";
"2 1 78 21 960 AND";
"2 1 78 20 961 AND";
"2 1 78 19 962 AND";
"2 1 78 18 963 AND";
"2 1 78 17 964 AND";
"2 1 78 16 965 AND";
"2 1 78 15 966 AND";
"2 1 78 14 967 AND";
"2 1 78 13 968 AND";
"2 1 78 12 969 AND";
"2 1 78 11 970 AND";
"2 1 78 10 971 AND";
"2 1 78 9 972 AND";
"2 1 78 8 973 AND";
"2 1 78 7 974 AND";
"2 1 78 6 975 AND";
"2 1 78 5 976 AND";
"2 1 78 4 977 AND";
"2 1 78 3 978 AND";
"2 1 78 2 979 AND";
"2 1 78 1 980 AND";
"2 1 78 0 981 AND";
"2 1 77 50 881 AND";
"2 1 77 49 882 AND";
"2 1 77 48 883 AND";
"2 1 77 47 884 AND";
"2 1 77 46 885 AND";
"2 1 77 45 886 AND";
"2 1 77 44 887 AND";
"2 1 77 43 888 AND";
"2 1 77 42 889 AND";
"2 1 77 41 890 AND";
"2 1 77 40 891 AND";
"2 1 77 39 892 AND";
"2 1 77 38 893 AND";
"2 1 77 37 894 AND";
"2 1 77 36 895 AND";
"2 1 77 35 896 AND";
"2 1 77 34 897 AND";
"2 1 77 33 898 AND";
"2 1 77 32 899 AND";
"2 1 77 31 900 AND";
"2 1 77 30 901 AND";
"2 1 77 29 902 AND";
"2 1 77 28 903 AND";
"2 1 77 27 904 AND";
"2 1 77 26 905 AND";
"2 1 77 25 906 AND";
"2 1 77 24 907 AND";
"2 1 77 23 908 AND";
"2 1 77 22 909 AND";
"2 1 77 21 910 AND";
"2 1 77 20 911 AND";
"2 1 77 19 912 AND";
"2 1 77 18 913 AND";
"2 1 77 17 914 AND";
"2 1 77 16 915 AND";
"2 1 77 15 916 AND";
"2 1 77 14 917 AND";
"2 1 77 13 918 AND";
"2 1 77 12 919 AND";
"2 1 77 11 920 AND";
"2 1 77 10 921 AND";
"2 1 77 9 922 AND";
"2 1 77 8 923 AND";
"2 1 77 7 924 AND";
"2 1 77 6 925 AND";
"2 1 77 5 926 AND";
"2 1 77 4 927 AND";
"2 1 77 3 928 AND";
"2 1 77 2 929 AND";
"2 1 77 1 930 AND";
"2 1 77 0 931 AND";
"2 1 76 51 829 AND";
"2 1 76 50 830 AND";
"2 1 76 49 831 AND";
"2 1 76 48 832 AND";
"2 1 76 47 833 AND";
"2 1 76 46 834 AND";
"2 1 76 45 835 AND";
"2 1 76 44 836 AND";
"2 1 76 43 837 AND";
"2 1 76 42 838 AND";
"2 1 76 41 839 AND";
"2 1 76 40 840 AND";
"2 1 76 39 841 AND";
"2 1 76 38 842 AND";
"2 1 76 37 843 AND";
"2 1 76 36 844 AND";
"2 1 76 35 845 AND";
"2 1 76 34 846 AND";
"2 1 76 33 847 AND";
"2 1 76 32 848 AND";
"2 1 76 31 849 AND";
"2 1 76 30 850 AND";
"2 1 76 29 851 AND";
"2 1 76 28 852 AND";
"2 1 76 27 853 AND";
"2 1 76 26 854 AND";
"2 1 76 25 855 AND";
"2 1 76 24 856 AND";
"2 1 76 23 857 AND";
"2 1 76 22 858 AND";
"2 1 76 21 859 AND";
"2 1 76 20 860 AND";
"2 1 76 19 861 AND";
"2 1 76 18 862 AND";
"2 1 76 17 863 AND";
"2 1 76 16 864 AND";
"2 1 76 15 865 AND";
"2 1 76 14 866 AND";
"2 1 76 13 867 AND";
"2 1 76 12 868 AND";
"2 1 76 11 869 AND";
"2 1 76 10 870 AND";
"2 1 76 9 871 AND";
"2 1 76 8 872 AND";
"2 1 76 7 873 AND";
"2 1 76 6 874 AND";
"2 1 76 5 875 AND";
"2 1 76 4 876 AND";
"2 1 76 3 877 AND";
"2 1 76 2 878 AND";
"2 1 76 1 879 AND";
"2 1 76 0 880 AND";
"2 1 75 52 776 AND";
"2 1 75 51 777 AND";
"2 1 75 50 778 AND";
"2 1 75 49 779 AND";
"2 1 75 48 780 AND";
"2 1 75 47 781 AND";
"2 1 75 46 782 AND";
"2 1 75 45 783 AND";
"2 1 75 44 784 AND";
"2 1 75 43 785 AND";
"2 1 75 42 786 AND";
"2 1 75 41 787 AND";
"2 1 75 40 788 AND";
"2 1 75 39 789 AND";
"2 1 75 38 790 AND";
"2 1 75 37 791 AND";
"2 1 75 36 792 AND";
"2 1 75 35 793 AND";
"2 1 75 34 794 AND";
"2 1 75 33 795 AND";
"2 1 75 32 796 AND";
"2 1 75 31 797 AND";
"2 1 75 30 798 AND";
"2 1 75 29 799 AND";
"2 1 75 28 800 AND";
"2 1 75 27 801 AND";
"2 1 75 26 802 AND";
"2 1 75 25 803 AND";
"2 1 75 24 804 AND";
"2 1 75 23 805 AND";
"2 1 75 22 806 AND";
"2 1 75 21 807 AND";
"2 1 75 20 808 AND";
"2 1 75 19 809 AND";
"2 1 75 18 810 AND";
"2 1 75 17 811 AND";
"2 1 75 16 812 AND";
"2 1 75 15 813 AND";
"2 1 75 14 814 AND";
"2 1 75 13 815 AND";
"2 1 75 12 816 AND";
"2 1 75 11 817 AND";
"2 1 75 10 818 AND";
"2 1 75 9 819 AND";
"2 1 75 8 820 AND";
"2 1 75 7 821 AND";
"2 1 75 6 822 AND";
"2 1 75 5 823 AND";
"2 1 75 4 824 AND";
"2 1 75 3 825 AND";
"2 1 75 2 826 AND";
"2 1 75 1 827 AND";
"2 1 75 0 828 AND";
"2 1 74 53 722 AND";
"2 1 74 52 723 AND";
"2 1 74 51 724 AND";
"2 1 74 50 725 AND";
"2 1 74 49 726 AND";
"2 1 74 48 727 AND";
"2 1 74 47 728 AND";
"2 1 74 46 729 AND";
"2 1 74 45 730 AND";
"2 1 74 44 731 AND";
"2 1 74 43 732 AND";
"2 1 74 42 733 AND";
"2 1 74 41 734 AND";
"2 1 74 40 735 AND";
"2 1 74 39 736 AND";
"2 1 74 38 737 AND";
"2 1 74 37 738 AND";
"2 1 74 36 739 AND";
"2 1 74 35 740 AND";
"2 1 74 34 741 AND";
"2 1 74 33 742 AND";
"2 1 74 32 743 AND";
"2 1 74 31 744 AND";
"2 1 74 30 745 AND";
"2 1 74 29 746 AND";
"2 1 74 28 747 AND";
"2 1 74 27 748 AND";
"2 1 74 26 749 AND";
"2 1 74 25 750 AND";
"2 1 74 24 751 AND";
"2 1 74 23 752 AND";
"2 1 74 22 753 AND";
"2 1 74 21 754 AND";
"2 1 74 20 755 AND";
"2 1 74 19 756 AND";
"2 1 74 18 757 AND";
"2 1 74 17 758 AND";
"2 1 74 16 759 AND";
"2 1 74 15 760 AND";
"2 1 74 14 761 AND";
"2 1 74 13 762 AND";
"2 1 74 12 763 AND";
"2 1 74 11 764 AND";
"2 1 74 10 765 AND";
"2 1 74 9 766 AND";
"2 1 74 8 767 AND";
"2 1 74 7 768 AND";
"2 1 74 6 769 AND";
"2 1 74 5 770 AND";
"2 1 74 4 771 AND";
"2 1 74 3 772 AND";
"2 1 74 2 773 AND";
"2 1 74 1 774 AND";
"2 1 74 0 775 AND";
"2 1 73 54 667 AND";
"2 1 73 53 668 AND";
"2 1 73 52 669 AND";
"2 1 73 51 670 AND";
"2 1 73 50 671 AND";
"2 1 73 49 672 AND";
"2 1 73 48 673 AND";
"2 1 73 47 674 AND";
"2 1 73 46 675 AND";
"2 1 73 45 676 AND";
"2 1 73 44 677 AND";
"2 1 73 43 678 AND";
"2 1 73 42 679 AND";
"2 1 73 41 680 AND";
"2 1 73 40 681 AND";
"2 1 73 39 682 AND";
"2 1 73 38 683 AND";
"2 1 73 37 684 AND";
"2 1 73 36 685 AND";
"2 1 73 35 686 AND";
"2 1 73 34 687 AND";
"2 1 73 33 688 AND";
"2 1 73 32 689 AND";
"2 1 73 31 690 AND";
"2 1 73 30 691 AND";
"2 1 73 29 692 AND";
"2 1 73 28 693 AND";
"2 1 73 27 694 AND";
"2 1 73 26 695 AND";
"2 1 73 25 696 AND";
"2 1 73 24 697 AND";
"2 1 73 23 698 AND";
"2 1 73 22 699 AND";
"2 1 73 21 700 AND";
"2 1 73 20 701 AND";
"2 1 73 19 702 AND";
"2 1 73 18 703 AND";
"2 1 73 17 704 AND";
"2 1 73 16 705 AND";
"2 1 73 15 706 AND";
"2 1 73 14 707 AND";
"2 1 73 13 708 AND";
"2 1 73 12 709 AND";
"2 1 73 11 710 AND";
"2 1 73 10 711 AND";
"2 1 73 9 712 AND";
"2 1 73 8 713 AND";
"2 1 73 7 714 AND";
"2 1 73 6 715 AND";
"2 1 73 5 716 AND";
"2 1 73 4 717 AND";
"2 1 73 3 718 AND";
"2 1 73 2 719 AND";
"2 1 73 1 720 AND";
"2 1 73 0 721 AND";
"2 1 72 55 611 AND";
"2 1 72 54 612 AND";
"2 1 72 53 613 AND";
"2 1 72 52 614 AND";
"2 1 72 51 615 AND";
"2 1 72 50 616 AND";
"2 1 72 49 617 AND";
"2 1 72 48 618 AND";
"2 1 72 47 619 AND";
"2 1 72 46 620 AND";
"2 1 72 45 621 AND";
"2 1 72 44 622 AND";
"2 1 72 43 623 AND";
"2 1 72 42 624 AND";
"2 1 72 41 625 AND";
"2 1 72 40 626 AND";
"2 1 72 39 627 AND";
"2 1 72 38 628 AND";
"2 1 72 37 629 AND";
"2 1 72 36 630 AND";
"2 1 72 35 631 AND";
"2 1 72 34 632 AND";
"2 1 72 33 633 AND";
"2 1 72 32 634 AND";
"2 1 72 31 635 AND";
"2 1 72 30 636 AND";
"2 1 72 29 637 AND";
"2 1 72 28 638 AND";
"2 1 72 27 639 AND";
"2 1 72 26 640 AND";
"2 1 72 25 641 AND";
"2 1 72 24 642 AND";
"2 1 72 23 643 AND";
"2 1 72 22 644 AND";
"2 1 72 21 645 AND";
"2 1 72 20 646 AND";
"2 1 72 19 647 AND";
"2 1 72 18 648 AND";
"2 1 72 17 649 AND";
"2 1 72 16 650 AND";
"2 1 72 15 651 AND";
"2 1 72 14 652 AND";
"2 1 72 13 653 AND";
"2 1 72 12 654 AND";
"2 1 72 11 655 AND";
"2 1 72 10 656 AND";
"2 1 72 9 657 AND";
"2 1 72 8 658 AND";
"2 1 72 7 659 AND";
"2 1 72 6 660 AND";
"2 1 72 5 661 AND";
"2 1 72 4 662 AND";
"2 1 72 3 663 AND";
"2 1 72 2 664 AND";
"2 1 72 1 665 AND";
"2 1 72 0 666 AND";
"2 1 71 56 554 AND";
"2 1 71 55 555 AND";
"2 1 71 54 556 AND";
"2 1 71 53 557 AND";
"2 1 71 52 558 AND";
"2 1 71 51 559 AND";
"2 1 71 50 560 AND";
"2 1 71 49 561 AND";
"2 1 71 48 562 AND";
"2 1 71 47 563 AND";
"2 1 71 46 564 AND";
"2 1 71 45 565 AND";
"2 1 71 44 566 AND";
"2 1 71 43 567 AND";
"2 1 71 42 568 AND";
"2 1 71 41 569 AND";
"2 1 71 40 570 AND";
"2 1 71 39 571 AND";
"2 1 71 38 572 AND";
"2 1 71 37 573 AND";
"2 1 71 36 574 AND";
"2 1 71 35 575 AND";
"2 1 71 34 576 AND";
"2 1 71 33 577 AND";
"2 1 71 32 578 AND";
"2 1 71 31 579 AND";
"2 1 71 30 580 AND";
"2 1 71 29 581 AND";
"2 1 71 28 582 AND";
"2 1 71 27 583 AND";
"2 1 71 26 584 AND";
"2 1 71 25 585 AND";
"2 1 71 24 586 AND";
"2 1 71 23 587 AND";
"2 1 71 22 588 AND";
"2 1 71 21 589 AND";
"2 1 71 20 590 AND";
"2 1 71 19 591 AND";
"2 1 71 18 592 AND";
"2 1 71 17 593 AND";
"2 1 71 16 594 AND";
"2 1 71 15 595 AND";
"2 1 71 14 596 AND";
"2 1 71 13 597 AND";
"2 1 71 12 598 AND";
"2 1 71 11 599 AND";
"2 1 71 10 600 AND";
"2 1 71 9 601 AND";
"2 1 71 8 602 AND";
"2 1 71 7 603 AND";
"2 1 71 6 604 AND";
"2 1 71 5 605 AND";
"2 1 71 4 606 AND";
"2 1 71 3 607 AND";
"2 1 71 2 608 AND";
"2 1 71 1 609 AND";
"2 1 71 0 610 AND";
"2 1 70 57 496 AND";
"2 1 70 56 497 AND";
"2 1 70 55 498 AND";
"2 1 70 54 499 AND";
"2 1 70 53 500 AND";
"2 1 70 52 501 AND";
"2 1 70 51 502 AND";
"2 1 70 50 503 AND";
"2 1 70 49 504 AND";
"2 1 70 48 505 AND";
"2 1 70 47 506 AND";
"2 1 70 46 507 AND";
"2 1 70 45 508 AND";
"2 1 70 44 509 AND";
"2 1 70 43 510 AND";
"2 1 70 42 511 AND";
"2 1 70 41 512 AND";
"2 1 70 40 513 AND";
"2 1 70 39 514 AND";
"2 1 70 38 515 AND";
"2 1 70 37 516 AND";
"2 1 70 36 517 AND";
"2 1 70 35 518 AND";
"2 1 70 34 519 AND";
"2 1 70 33 520 AND";
"2 1 70 32 521 AND";
"2 1 70 31 522 AND";
"2 1 70 30 523 AND";
"2 1 70 29 524 AND";
"2 1 70 28 525 AND";
"2 1 70 27 526 AND";
"2 1 70 26 527 AND";
"2 1 70 25 528 AND";
"2 1 70 24 529 AND";
"2 1 70 23 530 AND";
"2 1 70 22 531 AND";
"2 1 70 21 532 AND";
"2 1 70 20 533 AND";
"2 1 70 19 534 AND";
"2 1 70 18 535 AND";
"2 1 70 17 536 AND";
"2 1 70 16 537 AND";
"2 1 70 15 538 AND";
"2 1 70 14 539 AND";
"2 1 70 13 540 AND";
"2 1 70 12 541 AND";
"2 1 70 11 542 AND";
"2 1 70 10 543 AND";
"2 1 70 9 544 AND";
"2 1 70 8 545 AND";
"2 1 70 7 546 AND";
"2 1 70 6 547 AND";
"2 1 70 5 548 AND";
"2 1 70 4 549 AND";
"2 1 70 3 550 AND";
"2 1 70 2 551 AND";
"2 1 70 1 552 AND";
"2 1 70 0 553 AND";
"2 1 69 58 437 AND";
"2 1 69 57 438 AND";
"2 1 69 56 439 AND";
"2 1 69 55 440 AND";
"2 1 69 54 441 AND";
"2 1 69 53 442 AND";
"2 1 69 52 443 AND";
"2 1 69 51 444 AND";
"2 1 69 50 445 AND";
"2 1 69 49 446 AND";
"2 1 69 48 447 AND";
"2 1 69 47 448 AND";
"2 1 69 46 449 AND";
"2 1 69 45 450 AND";
"2 1 69 44 451 AND";
"2 1 69 43 452 AND";
"2 1 69 42 453 AND";
"2 1 69 41 454 AND";
"2 1 69 40 455 AND";
"2 1 69 39 456 AND";
"2 1 69 38 457 AND";
"2 1 69 37 458 AND";
"2 1 69 36 459 AND";
"2 1 69 35 460 AND";
"2 1 69 34 461 AND";
"2 1 69 33 462 AND";
"2 1 69 32 463 AND";
"2 1 69 31 464 AND";
"2 1 69 30 465 AND";
"2 1 69 29 466 AND";
"2 1 69 28 467 AND";
"2 1 69 27 468 AND";
"2 1 69 26 469 AND";
"2 1 69 25 470 AND";
"2 1 69 24 471 AND";
"2 1 69 23 472 AND";
"2 1 69 22 473 AND";
"2 1 69 21 474 AND";
"2 1 69 20 475 AND";
"2 1 69 19 476 AND";
"2 1 69 18 477 AND";
"2 1 69 17 478 AND";
"2 1 69 16 479 AND";
"2 1 69 15 480 AND";
"2 1 69 14 481 AND";
"2 1 69 13 482 AND";
"2 1 69 12 483 AND";
"2 1 69 11 484 AND";
"2 1 69 10 485 AND";
"2 1 69 9 486 AND";
"2 1 69 8 487 AND";
"2 1 69 7 488 AND";
"2 1 69 6 489 AND";
"2 1 69 5 490 AND";
"2 1 69 4 491 AND";
"2 1 69 3 492 AND";
"2 1 69 2 493 AND";
"2 1 69 1 494 AND";
"2 1 69 0 495 AND";
"2 1 68 59 377 AND";
"2 1 68 58 378 AND";
"2 1 68 57 379 AND";
"2 1 68 56 380 AND";
"2 1 68 55 381 AND";
"2 1 68 54 382 AND";
"2 1 68 53 383 AND";
"2 1 68 52 384 AND";
"2 1 68 51 385 AND";
"2 1 68 50 386 AND";
"2 1 68 49 387 AND";
"2 1 68 48 388 AND";
"2 1 68 47 389 AND";
"2 1 68 46 390 AND";
"2 1 68 45 391 AND";
"2 1 68 44 392 AND";
"2 1 68 43 393 AND";
"2 1 68 42 394 AND";
"2 1 68 41 395 AND";
"2 1 68 40 396 AND";
"2 1 68 39 397 AND";
"2 1 68 38 398 AND";
"2 1 68 37 399 AND";
"2 1 68 36 400 AND";
"2 1 68 35 401 AND";
"2 1 68 34 402 AND";
"2 1 68 33 403 AND";
"2 1 68 32 404 AND";
"2 1 68 31 405 AND";
"2 1 68 30 406 AND";
"2 1 68 29 407 AND";
"2 1 68 28 408 AND";
"2 1 68 27 409 AND";
"2 1 68 26 410 AND";
"2 1 68 25 411 AND";
"2 1 68 24 412 AND";
"2 1 68 23 413 AND";
"2 1 68 22 414 AND";
"2 1 68 21 415 AND";
"2 1 68 20 416 AND";
"2 1 68 19 417 AND";
"2 1 68 18 418 AND";
"2 1 68 17 419 AND";
"2 1 68 16 420 AND";
"2 1 68 15 421 AND";
"2 1 68 14 422 AND";
"2 1 68 13 423 AND";
"2 1 68 12 424 AND";
"2 1 68 11 425 AND";
"2 1 68 10 426 AND";
"2 1 68 9 427 AND";
"2 1 68 8 428 AND";
"2 1 68 7 429 AND";
"2 1 68 6 430 AND";
"2 1 68 5 431 AND";
"2 1 68 4 432 AND";
"2 1 68 3 433 AND";
"2 1 68 2 434 AND";
"2 1 68 1 435 AND";
"2 1 68 0 436 AND";
"2 1 67 60 316 AND";
"2 1 67 59 317 AND";
"2 1 67 58 318 AND";
"2 1 67 57 319 AND";
"2 1 67 56 320 AND";
"2 1 67 55 321 AND";
"2 1 67 54 322 AND";
"2 1 67 53 323 AND";
"2 1 67 52 324 AND";
"2 1 67 51 325 AND";
"2 1 67 50 326 AND";
"2 1 67 49 327 AND";
"2 1 67 48 328 AND";
"2 1 67 47 329 AND";
"2 1 67 46 330 AND";
"2 1 67 45 331 AND";
"2 1 67 44 332 AND";
"2 1 67 43 333 AND";
"2 1 67 42 334 AND";
"2 1 67 41 335 AND";
"2 1 67 40 336 AND";
"2 1 67 39 337 AND";
"2 1 67 38 338 AND";
"2 1 67 37 339 AND";
"2 1 67 36 340 AND";
"2 1 67 35 341 AND";
"2 1 67 34 342 AND";
"2 1 67 33 343 AND";
"2 1 67 32 344 AND";
"2 1 67 31 345 AND";
"2 1 67 30 346 AND";
"2 1 67 29 347 AND";
"2 1 67 28 348 AND";
"2 1 67 27 349 AND";
"2 1 67 26 350 AND";
"2 1 67 25 351 AND";
"2 1 67 24 352 AND";
"2 1 67 23 353 AND";
"2 1 67 22 354 AND";
"2 1 67 21 355 AND";
"2 1 67 20 356 AND";
"2 1 67 19 357 AND";
"2 1 67 18 358 AND";
"2 1 67 17 359 AND";
"2 1 67 16 360 AND";
"2 1 67 15 361 AND";
"2 1 67 14 362 AND";
"2 1 67 13 363 AND";
"2 1 67 12 364 AND";
"2 1 67 11 365 AND";
"2 1 67 10 366 AND";
"2 1 67 9 367 AND";
"2 1 67 8 368 AND";
"2 1 67 7 369 AND";
"2 1 67 6 370 AND";
"2 1 67 5 371 AND";
"2 1 67 4 372 AND";
"2 1 67 3 373 AND";
"2 1 67 2 374 AND";
"2 1 67 1 375 AND";
"2 1 67 0 376 AND";
"2 1 66 61 254 AND";
"2 1 66 60 255 AND";
"2 1 66 59 256 AND";
"2 1 66 58 257 AND";
"2 1 66 57 258 AND";
"2 1 66 56 259 AND";
"2 1 66 55 260 AND";
"2 1 66 54 261 AND";
"2 1 66 53 262 AND";
"2 1 66 52 263 AND";
"2 1 66 51 264 AND";
"2 1 66 50 265 AND";
"2 1 66 49 266 AND";
"2 1 66 48 267 AND";
"2 1 66 47 268 AND";
"2 1 66 46 269 AND";
"2 1 66 45 270 AND";
"2 1 66 44 271 AND";
"2 1 66 43 272 AND";
"2 1 66 42 273 AND";
"2 1 66 41 274 AND";
"2 1 66 40 275 AND";
"2 1 66 39 276 AND";
"2 1 66 38 277 AND";
"2 1 66 37 278 AND";
"2 1 66 36 279 AND";
"2 1 66 35 280 AND";
"2 1 66 34 281 AND";
"2 1 66 33 282 AND";
"2 1 66 32 283 AND";
"2 1 66 31 284 AND";
"2 1 66 30 285 AND";
"2 1 66 29 286 AND";
"2 1 66 28 287 AND";
"2 1 66 27 288 AND";
"2 1 66 26 289 AND";
"2 1 66 25 290 AND";
"2 1 66 24 291 AND";
"2 1 66 23 292 AND";
"2 1 66 22 293 AND";
"2 1 66 21 294 AND";
"2 1 66 20 295 AND";
"2 1 66 19 296 AND";
"2 1 66 18 297 AND";
"2 1 66 17 298 AND";
"2 1 66 16 299 AND";
"2 1 66 15 300 AND";
"2 1 66 14 301 AND";
"2 1 66 13 302 AND";
"2 1 66 12 303 AND";
"2 1 66 11 304 AND";
"2 1 66 10 305 AND";
"2 1 66 9 306 AND";
"2 1 66 8 307 AND";
"2 1 66 7 308 AND";
"2 1 66 6 309 AND";
"2 1 66 5 310 AND";
"2 1 66 4 311 AND";
"2 1 66 3 312 AND";
"2 1 66 2 313 AND";
"2 1 66 1 314 AND";
"2 1 66 0 315 AND";
"2 1 65 62 191 AND";
"2 1 65 61 192 AND";
"2 1 65 60 193 AND";
"2 1 65 59 194 AND";
"2 1 65 58 195 AND";
"2 1 65 57 196 AND";
"2 1 65 56 197 AND";
"2 1 65 55 198 AND";
"2 1 65 54 199 AND";
"2 1 65 53 200 AND";
"2 1 65 52 201 AND";
"2 1 65 51 202 AND";
"2 1 65 50 203 AND";
"2 1 65 49 204 AND";
"2 1 65 48 205 AND";
"2 1 65 47 206 AND";
"2 1 65 46 207 AND";
"2 1 65 45 208 AND";
"2 1 65 44 209 AND";
"2 1 65 43 210 AND";
"2 1 65 42 211 AND";
"2 1 65 41 212 AND";
"2 1 65 40 213 AND";
"2 1 65 39 214 AND";
"2 1 65 38 215 AND";
"2 1 65 37 216 AND";
"2 1 65 36 217 AND";
"2 1 65 35 218 AND";
"2 1 65 34 219 AND";
"2 1 65 33 220 AND";
"2 1 65 32 221 AND";
"2 1 65 31 222 AND";
"2 1 65 30 223 AND";
"2 1 65 29 224 AND";
"2 1 65 28 225 AND";
"2 1 65 27 226 AND";
"2 1 65 26 227 AND";
"2 1 65 25 228 AND";
"2 1 65 24 229 AND";
"2 1 65 23 230 AND";
"2 1 65 22 231 AND";
"2 1 65 21 232 AND";
"2 1 65 20 233 AND";
"2 1 65 19 234 AND";
"2 1 65 18 235 AND";
"2 1 65 17 236 AND";
"2 1 65 16 237 AND";
"2 1 65 15 238 AND";
"2 1 65 14 239 AND";
"2 1 65 13 240 AND";
"2 1 65 12 241 AND";
"2 1 65 11 242 AND";
"2 1 65 10 243 AND";
"2 1 65 9 244 AND";
"2 1 65 8 245 AND";
"2 1 65 7 246 AND";
"2 1 65 6 247 AND";
"2 1 65 5 248 AND";
"2 1 65 4 249 AND";
"2 1 65 3 250 AND";
"2 1 65 2 251 AND";
"2 1 65 1 252 AND";
"2 1 65 0 253 AND";
"2 1 64 63 128 AND";
"2 1 191 128 13498 XOR";
"2 1 64 62 129 AND";
"2 1 192 129 13502 XOR";
"2 1 64 61 130 AND";
"2 1 193 130 13506 XOR";
"2 1 64 60 131 AND";
"2 1 194 131 13510 XOR";
"2 1 64 59 132 AND";
"2 1 195 132 13514 XOR";
"2 1 64 58 133 AND";
"2 1 196 133 13518 XOR";
"2 1 64 57 134 AND";
"2 1 197 134 13522 XOR";
"2 1 64 56 135 AND";
"2 1 198 135 13526 XOR";
"2 1 64 55 136 AND";
"2 1 199 136 13530 XOR";
"2 1 64 54 137 AND";
"2 1 200 137 13534 XOR";
"2 1 64 53 138 AND";
"2 1 201 138 13538 XOR";
"2 1 64 52 139 AND";
"2 1 202 139 13542 XOR";
"2 1 64 51 140 AND";
"2 1 203 140 13546 XOR";
"2 1 64 50 141 AND";
"2 1 204 141 13550 XOR";
"2 1 64 49 142 AND";
"2 1 205 142 13554 XOR";
"2 1 64 48 143 AND";
"2 1 206 143 13558 XOR";
"2 1 64 47 144 AND";
"2 1 207 144 13562 XOR";
"2 1 64 46 145 AND";
"2 1 208 145 13566 XOR";
"2 1 64 45 146 AND";
"2 1 209 146 13570 XOR";
"2 1 64 44 147 AND";
"2 1 210 147 13574 XOR";
"2 1 64 43 148 AND";
"2 1 211 148 13578 XOR";
"2 1 64 42 149 AND";
"2 1 212 149 13582 XOR";
"2 1 64 41 150 AND";
"2 1 213 150 13586 XOR";
"2 1 64 40 151 AND";
"2 1 214 151 13590 XOR";
"2 1 64 39 152 AND";
"2 1 215 152 13594 XOR";
"2 1 64 38 153 AND";
"2 1 216 153 13598 XOR";
"2 1 64 37 154 AND";
"2 1 217 154 13602 XOR";
"2 1 64 36 155 AND";
"2 1 218 155 13606 XOR";
"2 1 64 35 156 AND";
"2 1 219 156 13610 XOR";
"2 1 64 34 157 AND";
"2 1 220 157 13614 XOR";
"2 1 64 33 158 AND";
"2 1 221 158 13618 XOR";
"2 1 64 32 159 AND";
"2 1 222 159 13622 XOR";
"2 1 64 31 160 AND";
"2 1 223 160 13626 XOR";
"2 1 64 30 161 AND";
"2 1 224 161 13630 XOR";
"2 1 64 29 162 AND";
"2 1 225 162 13634 XOR";
"2 1 64 28 163 AND";
"2 1 226 163 13638 XOR";
"2 1 64 27 164 AND";
"2 1 227 164 13642 XOR";
"2 1 64 26 165 AND";
"2 1 228 165 13646 XOR";
"2 1 64 25 166 AND";
"2 1 229 166 13650 XOR";
"2 1 64 24 167 AND";
"2 1 230 167 13654 XOR";
"2 1 64 23 168 AND";
"2 1 231 168 13658 XOR";
"2 1 64 22 169 AND";
"2 1 232 169 13662 XOR";
"2 1 64 21 170 AND";
"2 1 233 170 13666 XOR";
"2 1 64 20 171 AND";
"2 1 234 171 13670 XOR";
"2 1 64 19 172 AND";
"2 1 235 172 13674 XOR";
"2 1 64 18 173 AND";
"2 1 236 173 13678 XOR";
"2 1 64 17 174 AND";
"2 1 237 174 13682 XOR";
"2 1 64 16 175 AND";
"2 1 238 175 13686 XOR";
"2 1 64 15 176 AND";
"2 1 239 176 13690 XOR";
"2 1 64 14 177 AND";
"2 1 240 177 13694 XOR";
"2 1 64 13 178 AND";
"2 1 241 178 13698 XOR";
"2 1 64 12 179 AND";
"2 1 242 179 13702 XOR";
"2 1 64 11 180 AND";
"2 1 243 180 13706 XOR";
"2 1 64 10 181 AND";
"2 1 244 181 13710 XOR";
"2 1 64 9 182 AND";
"2 1 245 182 13714 XOR";
"2 1 64 8 183 AND";
"2 1 246 183 13718 XOR";
"2 1 64 7 184 AND";
"2 1 247 184 13722 XOR";
"2 1 64 6 185 AND";
"2 1 248 185 13726 XOR";
"2 1 64 5 186 AND";
"2 1 249 186 13730 XOR";
"2 1 64 4 187 AND";
"2 1 250 187 13734 XOR";
"2 1 64 3 188 AND";
"2 1 251 188 13738 XOR";
"2 1 64 2 189 AND";
"2 1 252 189 6116 XOR";
"2 1 64 1 190 AND";
"2 1 253 190 13740 XOR";
"2 1 253 190 2268 AND";
"2 1 6116 2268 2736 XOR";
"2 1 315 2736 13741 XOR";
"2 1 315 2736 2329 AND";
"2 1 252 2268 6115 XOR";
"2 1 189 2268 6114 XOR";
"2 1 6115 6114 6113 AND";
"2 1 6113 2268 2267 XOR";
"2 1 13738 2267 2735 XOR";
"2 1 251 2267 13737 XOR";
"2 1 188 2267 13736 XOR";
"2 1 13737 13736 13735 AND";
"2 1 13735 2267 2266 XOR";
"2 1 13734 2266 2734 XOR";
"2 1 250 2266 13733 XOR";
"2 1 187 2266 13732 XOR";
"2 1 13733 13732 13731 AND";
"2 1 13731 2266 2265 XOR";
"2 1 13730 2265 2733 XOR";
"2 1 249 2265 13729 XOR";
"2 1 186 2265 13728 XOR";
"2 1 13729 13728 13727 AND";
"2 1 13727 2265 2264 XOR";
"2 1 13726 2264 2732 XOR";
"2 1 248 2264 13725 XOR";
"2 1 185 2264 13724 XOR";
"2 1 13725 13724 13723 AND";
"2 1 13723 2264 2263 XOR";
"2 1 13722 2263 2731 XOR";
"2 1 247 2263 13721 XOR";
"2 1 184 2263 13720 XOR";
"2 1 13721 13720 13719 AND";
"2 1 13719 2263 2262 XOR";
"2 1 13718 2262 2730 XOR";
"2 1 246 2262 13717 XOR";
"2 1 183 2262 13716 XOR";
"2 1 13717 13716 13715 AND";
"2 1 13715 2262 2261 XOR";
"2 1 13714 2261 2729 XOR";
"2 1 245 2261 13713 XOR";
"2 1 182 2261 13712 XOR";
"2 1 13713 13712 13711 AND";
"2 1 13711 2261 2260 XOR";
"2 1 13710 2260 2728 XOR";
"2 1 244 2260 13709 XOR";
"2 1 181 2260 13708 XOR";
"2 1 13709 13708 13707 AND";
"2 1 13707 2260 2259 XOR";
"2 1 13706 2259 2727 XOR";
"2 1 243 2259 13705 XOR";
"2 1 180 2259 13704 XOR";
"2 1 13705 13704 13703 AND";
"2 1 13703 2259 2258 XOR";
"2 1 13702 2258 2726 XOR";
"2 1 242 2258 13701 XOR";
"2 1 179 2258 13700 XOR";
"2 1 13701 13700 13699 AND";
"2 1 13699 2258 2257 XOR";
"2 1 13698 2257 2725 XOR";
"2 1 241 2257 13697 XOR";
"2 1 178 2257 13696 XOR";
"2 1 13697 13696 13695 AND";
"2 1 13695 2257 2256 XOR";
"2 1 13694 2256 2724 XOR";
"2 1 240 2256 13693 XOR";
"2 1 177 2256 13692 XOR";
"2 1 13693 13692 13691 AND";
"2 1 13691 2256 2255 XOR";
"2 1 13690 2255 2723 XOR";
"2 1 239 2255 13689 XOR";
"2 1 176 2255 13688 XOR";
"2 1 13689 13688 13687 AND";
"2 1 13687 2255 2254 XOR";
"2 1 13686 2254 2722 XOR";
"2 1 238 2254 13685 XOR";
"2 1 175 2254 13684 XOR";
"2 1 13685 13684 13683 AND";
"2 1 13683 2254 2253 XOR";
"2 1 13682 2253 2721 XOR";
"2 1 237 2253 13681 XOR";
"2 1 174 2253 13680 XOR";
"2 1 13681 13680 13679 AND";
"2 1 13679 2253 2252 XOR";
"2 1 13678 2252 2720 XOR";
"2 1 236 2252 13677 XOR";
"2 1 173 2252 13676 XOR";
"2 1 13677 13676 13675 AND";
"2 1 13675 2252 2251 XOR";
"2 1 13674 2251 2719 XOR";
"2 1 235 2251 13673 XOR";
"2 1 172 2251 13672 XOR";
"2 1 13673 13672 13671 AND";
"2 1 13671 2251 2250 XOR";
"2 1 13670 2250 2718 XOR";
"2 1 234 2250 13669 XOR";
"2 1 171 2250 13668 XOR";
"2 1 13669 13668 13667 AND";
"2 1 13667 2250 2249 XOR";
"2 1 13666 2249 2717 XOR";
"2 1 233 2249 13665 XOR";
"2 1 170 2249 13664 XOR";
"2 1 13665 13664 13663 AND";
"2 1 13663 2249 2248 XOR";
"2 1 13662 2248 2716 XOR";
"2 1 232 2248 13661 XOR";
"2 1 169 2248 13660 XOR";
"2 1 13661 13660 13659 AND";
"2 1 13659 2248 2247 XOR";
"2 1 13658 2247 2715 XOR";
"2 1 231 2247 13657 XOR";
"2 1 168 2247 13656 XOR";
"2 1 13657 13656 13655 AND";
"2 1 13655 2247 2246 XOR";
"2 1 13654 2246 2714 XOR";
"2 1 230 2246 13653 XOR";
"2 1 167 2246 13652 XOR";
"2 1 13653 13652 13651 AND";
"2 1 13651 2246 2245 XOR";
"2 1 13650 2245 2713 XOR";
"2 1 229 2245 13649 XOR";
"2 1 166 2245 13648 XOR";
"2 1 13649 13648 13647 AND";
"2 1 13647 2245 2244 XOR";
"2 1 13646 2244 2712 XOR";
"2 1 228 2244 13645 XOR";
"2 1 165 2244 13644 XOR";
"2 1 13645 13644 13643 AND";
"2 1 13643 2244 2243 XOR";
"2 1 13642 2243 2711 XOR";
"2 1 227 2243 13641 XOR";
"2 1 164 2243 13640 XOR";
"2 1 13641 13640 13639 AND";
"2 1 13639 2243 2242 XOR";
"2 1 13638 2242 2710 XOR";
"2 1 226 2242 13637 XOR";
"2 1 163 2242 13636 XOR";
"2 1 13637 13636 13635 AND";
"2 1 13635 2242 2241 XOR";
"2 1 13634 2241 2709 XOR";
"2 1 225 2241 13633 XOR";
"2 1 162 2241 13632 XOR";
"2 1 13633 13632 13631 AND";
"2 1 13631 2241 2240 XOR";
"2 1 13630 2240 2708 XOR";
"2 1 224 2240 13629 XOR";
"2 1 161 2240 13628 XOR";
"2 1 13629 13628 13627 AND";
"2 1 13627 2240 2239 XOR";
"2 1 13626 2239 2707 XOR";
"2 1 223 2239 13625 XOR";
"2 1 160 2239 13624 XOR";
"2 1 13625 13624 13623 AND";
"2 1 13623 2239 2238 XOR";
"2 1 13622 2238 2706 XOR";
"2 1 222 2238 13621 XOR";
"2 1 159 2238 13620 XOR";
"2 1 13621 13620 13619 AND";
"2 1 13619 2238 2237 XOR";
"2 1 13618 2237 2705 XOR";
"2 1 221 2237 13617 XOR";
"2 1 158 2237 13616 XOR";
"2 1 13617 13616 13615 AND";
"2 1 13615 2237 2236 XOR";
"2 1 13614 2236 2704 XOR";
"2 1 220 2236 13613 XOR";
"2 1 157 2236 13612 XOR";
"2 1 13613 13612 13611 AND";
"2 1 13611 2236 2235 XOR";
"2 1 13610 2235 2703 XOR";
"2 1 219 2235 13609 XOR";
"2 1 156 2235 13608 XOR";
"2 1 13609 13608 13607 AND";
"2 1 13607 2235 2234 XOR";
"2 1 13606 2234 2702 XOR";
"2 1 218 2234 13605 XOR";
"2 1 155 2234 13604 XOR";
"2 1 13605 13604 13603 AND";
"2 1 13603 2234 2233 XOR";
"2 1 13602 2233 2701 XOR";
"2 1 217 2233 13601 XOR";
"2 1 154 2233 13600 XOR";
"2 1 13601 13600 13599 AND";
"2 1 13599 2233 2232 XOR";
"2 1 13598 2232 2700 XOR";
"2 1 216 2232 13597 XOR";
"2 1 153 2232 13596 XOR";
"2 1 13597 13596 13595 AND";
"2 1 13595 2232 2231 XOR";
"2 1 13594 2231 2699 XOR";
"2 1 215 2231 13593 XOR";
"2 1 152 2231 13592 XOR";
"2 1 13593 13592 13591 AND";
"2 1 13591 2231 2230 XOR";
"2 1 13590 2230 2698 XOR";
"2 1 214 2230 13589 XOR";
"2 1 151 2230 13588 XOR";
"2 1 13589 13588 13587 AND";
"2 1 13587 2230 2229 XOR";
"2 1 13586 2229 2697 XOR";
"2 1 213 2229 13585 XOR";
"2 1 150 2229 13584 XOR";
"2 1 13585 13584 13583 AND";
"2 1 13583 2229 2228 XOR";
"2 1 13582 2228 2696 XOR";
"2 1 212 2228 13581 XOR";
"2 1 149 2228 13580 XOR";
"2 1 13581 13580 13579 AND";
"2 1 13579 2228 2227 XOR";
"2 1 13578 2227 2695 XOR";
"2 1 211 2227 13577 XOR";
"2 1 148 2227 13576 XOR";
"2 1 13577 13576 13575 AND";
"2 1 13575 2227 2226 XOR";
"2 1 13574 2226 2694 XOR";
"2 1 210 2226 13573 XOR";
"2 1 147 2226 13572 XOR";
"2 1 13573 13572 13571 AND";
"2 1 13571 2226 2225 XOR";
"2 1 13570 2225 2693 XOR";
"2 1 209 2225 13569 XOR";
"2 1 146 2225 13568 XOR";
"2 1 13569 13568 13567 AND";
"2 1 13567 2225 2224 XOR";
"2 1 13566 2224 2692 XOR";
"2 1 208 2224 13565 XOR";
"2 1 145 2224 13564 XOR";
"2 1 13565 13564 13563 AND";
"2 1 13563 2224 2223 XOR";
"2 1 13562 2223 2691 XOR";
"2 1 207 2223 13561 XOR";
"2 1 144 2223 13560 XOR";
"2 1 13561 13560 13559 AND";
"2 1 13559 2223 2222 XOR";
"2 1 13558 2222 2690 XOR";
"2 1 206 2222 13557 XOR";
"2 1 143 2222 13556 XOR";
"2 1 13557 13556 13555 AND";
"2 1 13555 2222 2221 XOR";
"2 1 13554 2221 2689 XOR";
"2 1 205 2221 13553 XOR";
"2 1 142 2221 13552 XOR";
"2 1 13553 13552 13551 AND";
"2 1 13551 2221 2220 XOR";
"2 1 13550 2220 2688 XOR";
"2 1 204 2220 13549 XOR";
"2 1 141 2220 13548 XOR";
"2 1 13549 13548 13547 AND";
"2 1 13547 2220 2219 XOR";
"2 1 13546 2219 2687 XOR";
"2 1 203 2219 13545 XOR";
"2 1 140 2219 13544 XOR";
"2 1 13545 13544 13543 AND";
"2 1 13543 2219 2218 XOR";
"2 1 13542 2218 2686 XOR";
"2 1 202 2218 13541 XOR";
"2 1 139 2218 13540 XOR";
"2 1 13541 13540 13539 AND";
"2 1 13539 2218 2217 XOR";
"2 1 13538 2217 2685 XOR";
"2 1 201 2217 13537 XOR";
"2 1 138 2217 13536 XOR";
"2 1 13537 13536 13535 AND";
"2 1 13535 2217 2216 XOR";
"2 1 13534 2216 2684 XOR";
"2 1 200 2216 13533 XOR";
"2 1 137 2216 13532 XOR";
"2 1 13533 13532 13531 AND";
"2 1 13531 2216 2215 XOR";
"2 1 13530 2215 2683 XOR";
"2 1 199 2215 13529 XOR";
"2 1 136 2215 13528 XOR";
"2 1 13529 13528 13527 AND";
"2 1 13527 2215 2214 XOR";
"2 1 13526 2214 2682 XOR";
"2 1 198 2214 13525 XOR";
"2 1 135 2214 13524 XOR";
"2 1 13525 13524 13523 AND";
"2 1 13523 2214 2213 XOR";
"2 1 13522 2213 2681 XOR";
"2 1 197 2213 13521 XOR";
"2 1 134 2213 13520 XOR";
"2 1 13521 13520 13519 AND";
"2 1 13519 2213 2212 XOR";
"2 1 13518 2212 2680 XOR";
"2 1 196 2212 13517 XOR";
"2 1 133 2212 13516 XOR";
"2 1 13517 13516 13515 AND";
"2 1 13515 2212 2211 XOR";
"2 1 13514 2211 2679 XOR";
"2 1 195 2211 13513 XOR";
"2 1 132 2211 13512 XOR";
"2 1 13513 13512 13511 AND";
"2 1 13511 2211 2210 XOR";
"2 1 13510 2210 2678 XOR";
"2 1 194 2210 13509 XOR";
"2 1 131 2210 13508 XOR";
"2 1 13509 13508 13507 AND";
"2 1 13507 2210 2209 XOR";
"2 1 13506 2209 2677 XOR";
"2 1 193 2209 13505 XOR";
"2 1 130 2209 13504 XOR";
"2 1 13505 13504 13503 AND";
"2 1 13503 2209 2208 XOR";
"2 1 13502 2208 2676 XOR";
"2 1 192 2208 13501 XOR";
"2 1 129 2208 13500 XOR";
"2 1 13501 13500 13499 AND";
"2 1 13499 2208 2207 XOR";
"2 1 13498 2207 2675 XOR";
"2 1 314 2735 13497 XOR";
"2 1 13497 2329 2797 XOR";
"2 1 376 2797 13742 XOR";
"2 1 376 2797 2389 AND";
"2 1 314 2329 13496 XOR";
"2 1 2735 2329 13495 XOR";
"2 1 13496 13495 13494 AND";
"2 1 13494 2329 2328 XOR";
"2 1 313 2734 13493 XOR";
"2 1 13493 2328 2796 XOR";
"2 1 313 2328 13492 XOR";
"2 1 2734 2328 13491 XOR";
"2 1 13492 13491 13490 AND";
"2 1 13490 2328 2327 XOR";
"2 1 312 2733 13489 XOR";
"2 1 13489 2327 2795 XOR";
"2 1 312 2327 13488 XOR";
"2 1 2733 2327 13487 XOR";
"2 1 13488 13487 13486 AND";
"2 1 13486 2327 2326 XOR";
"2 1 311 2732 13485 XOR";
"2 1 13485 2326 2794 XOR";
"2 1 311 2326 13484 XOR";
"2 1 2732 2326 13483 XOR";
"2 1 13484 13483 13482 AND";
"2 1 13482 2326 2325 XOR";
"2 1 310 2731 13481 XOR";
"2 1 13481 2325 2793 XOR";
"2 1 310 2325 13480 XOR";
"2 1 2731 2325 13479 XOR";
"2 1 13480 13479 13478 AND";
"2 1 13478 2325 2324 XOR";
"2 1 309 2730 13477 XOR";
"2 1 13477 2324 2792 XOR";
"2 1 309 2324 13476 XOR";
"2 1 2730 2324 13475 XOR";
"2 1 13476 13475 13474 AND";
"2 1 13474 2324 2323 XOR";
"2 1 308 2729 13473 XOR";
"2 1 13473 2323 2791 XOR";
"2 1 308 2323 13472 XOR";
"2 1 2729 2323 13471 XOR";
"2 1 13472 13471 13470 AND";
"2 1 13470 2323 2322 XOR";
"2 1 307 2728 13469 XOR";
"2 1 13469 2322 2790 XOR";
"2 1 307 2322 13468 XOR";
"2 1 2728 2322 13467 XOR";
"2 1 13468 13467 13466 AND";
"2 1 13466 2322 2321 XOR";
"2 1 306 2727 13465 XOR";
"2 1 13465 2321 2789 XOR";
"2 1 306 2321 13464 XOR";
"2 1 2727 2321 13463 XOR";
"2 1 13464 13463 13462 AND";
"2 1 13462 2321 2320 XOR";
"2 1 305 2726 13461 XOR";
"2 1 13461 2320 2788 XOR";
"2 1 305 2320 13460 XOR";
"2 1 2726 2320 13459 XOR";
"2 1 13460 13459 13458 AND";
"2 1 13458 2320 2319 XOR";
"2 1 304 2725 13457 XOR";
"2 1 13457 2319 2787 XOR";
"2 1 304 2319 13456 XOR";
"2 1 2725 2319 13455 XOR";
"2 1 13456 13455 13454 AND";
"2 1 13454 2319 2318 XOR";
"2 1 303 2724 13453 XOR";
"2 1 13453 2318 2786 XOR";
"2 1 303 2318 13452 XOR";
"2 1 2724 2318 13451 XOR";
"2 1 13452 13451 13450 AND";
"2 1 13450 2318 2317 XOR";
"2 1 302 2723 13449 XOR";
"2 1 13449 2317 2785 XOR";
"2 1 302 2317 13448 XOR";
"2 1 2723 2317 13447 XOR";
"2 1 13448 13447 13446 AND";
"2 1 13446 2317 2316 XOR";
"2 1 301 2722 13445 XOR";
"2 1 13445 2316 2784 XOR";
"2 1 301 2316 13444 XOR";
"2 1 2722 2316 13443 XOR";
"2 1 13444 13443 13442 AND";
"2 1 13442 2316 2315 XOR";
"2 1 300 2721 13441 XOR";
"2 1 13441 2315 2783 XOR";
"2 1 300 2315 13440 XOR";
"2 1 2721 2315 13439 XOR";
"2 1 13440 13439 13438 AND";
"2 1 13438 2315 2314 XOR";
"2 1 299 2720 13437 XOR";
"2 1 13437 2314 2782 XOR";
"2 1 299 2314 13436 XOR";
"2 1 2720 2314 13435 XOR";
"2 1 13436 13435 13434 AND";
"2 1 13434 2314 2313 XOR";
"2 1 298 2719 13433 XOR";
"2 1 13433 2313 2781 XOR";
"2 1 298 2313 13432 XOR";
"2 1 2719 2313 13431 XOR";
"2 1 13432 13431 13430 AND";
"2 1 13430 2313 2312 XOR";
"2 1 297 2718 13429 XOR";
"2 1 13429 2312 2780 XOR";
"2 1 297 2312 13428 XOR";
"2 1 2718 2312 13427 XOR";
"2 1 13428 13427 13426 AND";
"2 1 13426 2312 2311 XOR";
"2 1 296 2717 13425 XOR";
"2 1 13425 2311 2779 XOR";
"2 1 296 2311 13424 XOR";
"2 1 2717 2311 13423 XOR";
"2 1 13424 13423 13422 AND";
"2 1 13422 2311 2310 XOR";
"2 1 295 2716 13421 XOR";
"2 1 13421 2310 2778 XOR";
"2 1 295 2310 13420 XOR";
"2 1 2716 2310 13419 XOR";
"2 1 13420 13419 13418 AND";
"2 1 13418 2310 2309 XOR";
"2 1 294 2715 13417 XOR";
"2 1 13417 2309 2777 XOR";
"2 1 294 2309 13416 XOR";
"2 1 2715 2309 13415 XOR";
"2 1 13416 13415 13414 AND";
"2 1 13414 2309 2308 XOR";
"2 1 293 2714 13413 XOR";
"2 1 13413 2308 2776 XOR";
"2 1 293 2308 13412 XOR";
"2 1 2714 2308 13411 XOR";
"2 1 13412 13411 13410 AND";
"2 1 13410 2308 2307 XOR";
"2 1 292 2713 13409 XOR";
"2 1 13409 2307 2775 XOR";
"2 1 292 2307 13408 XOR";
"2 1 2713 2307 13407 XOR";
"2 1 13408 13407 13406 AND";
"2 1 13406 2307 2306 XOR";
"2 1 291 2712 13405 XOR";
"2 1 13405 2306 2774 XOR";
"2 1 291 2306 13404 XOR";
"2 1 2712 2306 13403 XOR";
"2 1 13404 13403 13402 AND";
"2 1 13402 2306 2305 XOR";
"2 1 290 2711 13401 XOR";
"2 1 13401 2305 2773 XOR";
"2 1 290 2305 13400 XOR";
"2 1 2711 2305 13399 XOR";
"2 1 13400 13399 13398 AND";
"2 1 13398 2305 2304 XOR";
"2 1 289 2710 13397 XOR";
"2 1 13397 2304 2772 XOR";
"2 1 289 2304 13396 XOR";
"2 1 2710 2304 13395 XOR";
"2 1 13396 13395 13394 AND";
"2 1 13394 2304 2303 XOR";
"2 1 288 2709 13393 XOR";
"2 1 13393 2303 2771 XOR";
"2 1 288 2303 13392 XOR";
"2 1 2709 2303 13391 XOR";
"2 1 13392 13391 13390 AND";
"2 1 13390 2303 2302 XOR";
"2 1 287 2708 13389 XOR";
"2 1 13389 2302 2770 XOR";
"2 1 287 2302 13388 XOR";
"2 1 2708 2302 13387 XOR";
"2 1 13388 13387 13386 AND";
"2 1 13386 2302 2301 XOR";
"2 1 286 2707 13385 XOR";
"2 1 13385 2301 2769 XOR";
"2 1 286 2301 13384 XOR";
"2 1 2707 2301 13383 XOR";
"2 1 13384 13383 13382 AND";
"2 1 13382 2301 2300 XOR";
"2 1 285 2706 13381 XOR";
"2 1 13381 2300 2768 XOR";
"2 1 285 2300 13380 XOR";
"2 1 2706 2300 13379 XOR";
"2 1 13380 13379 13378 AND";
"2 1 13378 2300 2299 XOR";
"2 1 284 2705 13377 XOR";
"2 1 13377 2299 2767 XOR";
"2 1 284 2299 13376 XOR";
"2 1 2705 2299 13375 XOR";
"2 1 13376 13375 13374 AND";
"2 1 13374 2299 2298 XOR";
"2 1 283 2704 13373 XOR";
"2 1 13373 2298 2766 XOR";
"2 1 283 2298 13372 XOR";
"2 1 2704 2298 13371 XOR";
"2 1 13372 13371 13370 AND";
"2 1 13370 2298 2297 XOR";
"2 1 282 2703 13369 XOR";
"2 1 13369 2297 2765 XOR";
"2 1 282 2297 13368 XOR";
"2 1 2703 2297 13367 XOR";
"2 1 13368 13367 13366 AND";
"2 1 13366 2297 2296 XOR";
"2 1 281 2702 13365 XOR";
"2 1 13365 2296 2764 XOR";
"2 1 281 2296 13364 XOR";
"2 1 2702 2296 13363 XOR";
"2 1 13364 13363 13362 AND";
"2 1 13362 2296 2295 XOR";
"2 1 280 2701 13361 XOR";
"2 1 13361 2295 2763 XOR";
"2 1 280 2295 13360 XOR";
"2 1 2701 2295 13359 XOR";
"2 1 13360 13359 13358 AND";
"2 1 13358 2295 2294 XOR";
"2 1 279 2700 13357 XOR";
"2 1 13357 2294 2762 XOR";
"2 1 279 2294 13356 XOR";
"2 1 2700 2294 13355 XOR";
"2 1 13356 13355 13354 AND";
"2 1 13354 2294 2293 XOR";
"2 1 278 2699 13353 XOR";
"2 1 13353 2293 2761 XOR";
"2 1 278 2293 13352 XOR";
"2 1 2699 2293 13351 XOR";
"2 1 13352 13351 13350 AND";
"2 1 13350 2293 2292 XOR";
"2 1 277 2698 13349 XOR";
"2 1 13349 2292 2760 XOR";
"2 1 277 2292 13348 XOR";
"2 1 2698 2292 13347 XOR";
"2 1 13348 13347 13346 AND";
"2 1 13346 2292 2291 XOR";
"2 1 276 2697 13345 XOR";
"2 1 13345 2291 2759 XOR";
"2 1 276 2291 13344 XOR";
"2 1 2697 2291 13343 XOR";
"2 1 13344 13343 13342 AND";
"2 1 13342 2291 2290 XOR";
"2 1 275 2696 13341 XOR";
"2 1 13341 2290 2758 XOR";
"2 1 275 2290 13340 XOR";
"2 1 2696 2290 13339 XOR";
"2 1 13340 13339 13338 AND";
"2 1 13338 2290 2289 XOR";
"2 1 274 2695 13337 XOR";
"2 1 13337 2289 2757 XOR";
"2 1 274 2289 13336 XOR";
"2 1 2695 2289 13335 XOR";
"2 1 13336 13335 13334 AND";
"2 1 13334 2289 2288 XOR";
"2 1 273 2694 13333 XOR";
"2 1 13333 2288 2756 XOR";
"2 1 273 2288 13332 XOR";
"2 1 2694 2288 13331 XOR";
"2 1 13332 13331 13330 AND";
"2 1 13330 2288 2287 XOR";
"2 1 272 2693 13329 XOR";
"2 1 13329 2287 2755 XOR";
"2 1 272 2287 13328 XOR";
"2 1 2693 2287 13327 XOR";
"2 1 13328 13327 13326 AND";
"2 1 13326 2287 2286 XOR";
"2 1 271 2692 13325 XOR";
"2 1 13325 2286 2754 XOR";
"2 1 271 2286 13324 XOR";
"2 1 2692 2286 13323 XOR";
"2 1 13324 13323 13322 AND";
"2 1 13322 2286 2285 XOR";
"2 1 270 2691 13321 XOR";
"2 1 13321 2285 2753 XOR";
"2 1 270 2285 13320 XOR";
"2 1 2691 2285 13319 XOR";
"2 1 13320 13319 13318 AND";
"2 1 13318 2285 2284 XOR";
"2 1 269 2690 13317 XOR";
"2 1 13317 2284 2752 XOR";
"2 1 269 2284 13316 XOR";
"2 1 2690 2284 13315 XOR";
"2 1 13316 13315 13314 AND";
"2 1 13314 2284 2283 XOR";
"2 1 268 2689 13313 XOR";
"2 1 13313 2283 2751 XOR";
"2 1 268 2283 13312 XOR";
"2 1 2689 2283 13311 XOR";
"2 1 13312 13311 13310 AND";
"2 1 13310 2283 2282 XOR";
"2 1 267 2688 13309 XOR";
"2 1 13309 2282 2750 XOR";
"2 1 267 2282 13308 XOR";
"2 1 2688 2282 13307 XOR";
"2 1 13308 13307 13306 AND";
"2 1 13306 2282 2281 XOR";
"2 1 266 2687 13305 XOR";
"2 1 13305 2281 2749 XOR";
"2 1 266 2281 13304 XOR";
"2 1 2687 2281 13303 XOR";
"2 1 13304 13303 13302 AND";
"2 1 13302 2281 2280 XOR";
"2 1 265 2686 13301 XOR";
"2 1 13301 2280 2748 XOR";
"2 1 265 2280 13300 XOR";
"2 1 2686 2280 13299 XOR";
"2 1 13300 13299 13298 AND";
"2 1 13298 2280 2279 XOR";
"2 1 264 2685 13297 XOR";
"2 1 13297 2279 2747 XOR";
"2 1 264 2279 13296 XOR";
"2 1 2685 2279 13295 XOR";
"2 1 13296 13295 13294 AND";
"2 1 13294 2279 2278 XOR";
"2 1 263 2684 13293 XOR";
"2 1 13293 2278 2746 XOR";
"2 1 263 2278 13292 XOR";
"2 1 2684 2278 13291 XOR";
"2 1 13292 13291 13290 AND";
"2 1 13290 2278 2277 XOR";
"2 1 262 2683 13289 XOR";
"2 1 13289 2277 2745 XOR";
"2 1 262 2277 13288 XOR";
"2 1 2683 2277 13287 XOR";
"2 1 13288 13287 13286 AND";
"2 1 13286 2277 2276 XOR";
"2 1 261 2682 13285 XOR";
"2 1 13285 2276 2744 XOR";
"2 1 261 2276 13284 XOR";
"2 1 2682 2276 13283 XOR";
"2 1 13284 13283 13282 AND";
"2 1 13282 2276 2275 XOR";
"2 1 260 2681 13281 XOR";
"2 1 13281 2275 2743 XOR";
"2 1 260 2275 13280 XOR";
"2 1 2681 2275 13279 XOR";
"2 1 13280 13279 13278 AND";
"2 1 13278 2275 2274 XOR";
"2 1 259 2680 13277 XOR";
"2 1 13277 2274 2742 XOR";
"2 1 259 2274 13276 XOR";
"2 1 2680 2274 13275 XOR";
"2 1 13276 13275 13274 AND";
"2 1 13274 2274 2273 XOR";
"2 1 258 2679 13273 XOR";
"2 1 13273 2273 2741 XOR";
"2 1 258 2273 13272 XOR";
"2 1 2679 2273 13271 XOR";
"2 1 13272 13271 13270 AND";
"2 1 13270 2273 2272 XOR";
"2 1 257 2678 13269 XOR";
"2 1 13269 2272 2740 XOR";
"2 1 257 2272 13268 XOR";
"2 1 2678 2272 13267 XOR";
"2 1 13268 13267 13266 AND";
"2 1 13266 2272 2271 XOR";
"2 1 256 2677 13265 XOR";
"2 1 13265 2271 2739 XOR";
"2 1 256 2271 13264 XOR";
"2 1 2677 2271 13263 XOR";
"2 1 13264 13263 13262 AND";
"2 1 13262 2271 2270 XOR";
"2 1 255 2676 13261 XOR";
"2 1 13261 2270 2738 XOR";
"2 1 255 2270 13260 XOR";
"2 1 2676 2270 13259 XOR";
"2 1 13260 13259 13258 AND";
"2 1 13258 2270 2269 XOR";
"2 1 254 2675 13257 XOR";
"2 1 13257 2269 2737 XOR";
"2 1 375 2796 13256 XOR";
"2 1 13256 2389 2857 XOR";
"2 1 436 2857 13743 XOR";
"2 1 436 2857 2448 AND";
"2 1 375 2389 13255 XOR";
"2 1 2796 2389 13254 XOR";
"2 1 13255 13254 13253 AND";
"2 1 13253 2389 2388 XOR";
"2 1 374 2795 13252 XOR";
"2 1 13252 2388 2856 XOR";
"2 1 374 2388 13251 XOR";
"2 1 2795 2388 13250 XOR";
"2 1 13251 13250 13249 AND";
"2 1 13249 2388 2387 XOR";
"2 1 373 2794 13248 XOR";
"2 1 13248 2387 2855 XOR";
"2 1 373 2387 13247 XOR";
"2 1 2794 2387 13246 XOR";
"2 1 13247 13246 13245 AND";
"2 1 13245 2387 2386 XOR";
"2 1 372 2793 13244 XOR";
"2 1 13244 2386 2854 XOR";
"2 1 372 2386 13243 XOR";
"2 1 2793 2386 13242 XOR";
"2 1 13243 13242 13241 AND";
"2 1 13241 2386 2385 XOR";
"2 1 371 2792 13240 XOR";
"2 1 13240 2385 2853 XOR";
"2 1 371 2385 13239 XOR";
"2 1 2792 2385 13238 XOR";
"2 1 13239 13238 13237 AND";
"2 1 13237 2385 2384 XOR";
"2 1 370 2791 13236 XOR";
"2 1 13236 2384 2852 XOR";
"2 1 370 2384 13235 XOR";
"2 1 2791 2384 13234 XOR";
"2 1 13235 13234 13233 AND";
"2 1 13233 2384 2383 XOR";
"2 1 369 2790 13232 XOR";
"2 1 13232 2383 2851 XOR";
"2 1 369 2383 13231 XOR";
"2 1 2790 2383 13230 XOR";
"2 1 13231 13230 13229 AND";
"2 1 13229 2383 2382 XOR";
"2 1 368 2789 13228 XOR";
"2 1 13228 2382 2850 XOR";
"2 1 368 2382 13227 XOR";
"2 1 2789 2382 13226 XOR";
"2 1 13227 13226 13225 AND";
"2 1 13225 2382 2381 XOR";
"2 1 367 2788 13224 XOR";
"2 1 13224 2381 2849 XOR";
"2 1 367 2381 13223 XOR";
"2 1 2788 2381 13222 XOR";
"2 1 13223 13222 13221 AND";
"2 1 13221 2381 2380 XOR";
"2 1 366 2787 13220 XOR";
"2 1 13220 2380 2848 XOR";
"2 1 366 2380 13219 XOR";
"2 1 2787 2380 13218 XOR";
"2 1 13219 13218 13217 AND";
"2 1 13217 2380 2379 XOR";
"2 1 365 2786 13216 XOR";
"2 1 13216 2379 2847 XOR";
"2 1 365 2379 13215 XOR";
"2 1 2786 2379 13214 XOR";
"2 1 13215 13214 13213 AND";
"2 1 13213 2379 2378 XOR";
"2 1 364 2785 13212 XOR";
"2 1 13212 2378 2846 XOR";
"2 1 364 2378 13211 XOR";
"2 1 2785 2378 13210 XOR";
"2 1 13211 13210 13209 AND";
"2 1 13209 2378 2377 XOR";
"2 1 363 2784 13208 XOR";
"2 1 13208 2377 2845 XOR";
"2 1 363 2377 13207 XOR";
"2 1 2784 2377 13206 XOR";
"2 1 13207 13206 13205 AND";
"2 1 13205 2377 2376 XOR";
"2 1 362 2783 13204 XOR";
"2 1 13204 2376 2844 XOR";
"2 1 362 2376 13203 XOR";
"2 1 2783 2376 13202 XOR";
"2 1 13203 13202 13201 AND";
"2 1 13201 2376 2375 XOR";
"2 1 361 2782 13200 XOR";
"2 1 13200 2375 2843 XOR";
"2 1 361 2375 13199 XOR";
"2 1 2782 2375 13198 XOR";
"2 1 13199 13198 13197 AND";
"2 1 13197 2375 2374 XOR";
"2 1 360 2781 13196 XOR";
"2 1 13196 2374 2842 XOR";
"2 1 360 2374 13195 XOR";
"2 1 2781 2374 13194 XOR";
"2 1 13195 13194 13193 AND";
"2 1 13193 2374 2373 XOR";
"2 1 359 2780 13192 XOR";
"2 1 13192 2373 2841 XOR";
"2 1 359 2373 13191 XOR";
"2 1 2780 2373 13190 XOR";
"2 1 13191 13190 13189 AND";
"2 1 13189 2373 2372 XOR";
"2 1 358 2779 13188 XOR";
"2 1 13188 2372 2840 XOR";
"2 1 358 2372 13187 XOR";
"2 1 2779 2372 13186 XOR";
"2 1 13187 13186 13185 AND";
"2 1 13185 2372 2371 XOR";
"2 1 357 2778 13184 XOR";
"2 1 13184 2371 2839 XOR";
"2 1 357 2371 13183 XOR";
"2 1 2778 2371 13182 XOR";
"2 1 13183 13182 13181 AND";
"2 1 13181 2371 2370 XOR";
"2 1 356 2777 13180 XOR";
"2 1 13180 2370 2838 XOR";
"2 1 356 2370 13179 XOR";
"2 1 2777 2370 13178 XOR";
"2 1 13179 13178 13177 AND";
"2 1 13177 2370 2369 XOR";
"2 1 355 2776 13176 XOR";
"2 1 13176 2369 2837 XOR";
"2 1 355 2369 13175 XOR";
"2 1 2776 2369 13174 XOR";
"2 1 13175 13174 13173 AND";
"2 1 13173 2369 2368 XOR";
"2 1 354 2775 13172 XOR";
"2 1 13172 2368 2836 XOR";
"2 1 354 2368 13171 XOR";
"2 1 2775 2368 13170 XOR";
"2 1 13171 13170 13169 AND";
"2 1 13169 2368 2367 XOR";
"2 1 353 2774 13168 XOR";
"2 1 13168 2367 2835 XOR";
"2 1 353 2367 13167 XOR";
"2 1 2774 2367 13166 XOR";
"2 1 13167 13166 13165 AND";
"2 1 13165 2367 2366 XOR";
"2 1 352 2773 13164 XOR";
"2 1 13164 2366 2834 XOR";
"2 1 352 2366 13163 XOR";
"2 1 2773 2366 13162 XOR";
"2 1 13163 13162 13161 AND";
"2 1 13161 2366 2365 XOR";
"2 1 351 2772 13160 XOR";
"2 1 13160 2365 2833 XOR";
"2 1 351 2365 13159 XOR";
"2 1 2772 2365 13158 XOR";
"2 1 13159 13158 13157 AND";
"2 1 13157 2365 2364 XOR";
"2 1 350 2771 13156 XOR";
"2 1 13156 2364 2832 XOR";
"2 1 350 2364 13155 XOR";
"2 1 2771 2364 13154 XOR";
"2 1 13155 13154 13153 AND";
"2 1 13153 2364 2363 XOR";
"2 1 349 2770 13152 XOR";
"2 1 13152 2363 2831 XOR";
"2 1 349 2363 13151 XOR";
"2 1 2770 2363 13150 XOR";
"2 1 13151 13150 13149 AND";
"2 1 13149 2363 2362 XOR";
"2 1 348 2769 13148 XOR";
"2 1 13148 2362 2830 XOR";
"2 1 348 2362 13147 XOR";
"2 1 2769 2362 13146 XOR";
"2 1 13147 13146 13145 AND";
"2 1 13145 2362 2361 XOR";
"2 1 347 2768 13144 XOR";
"2 1 13144 2361 2829 XOR";
"2 1 347 2361 13143 XOR";
"2 1 2768 2361 13142 XOR";
"2 1 13143 13142 13141 AND";
"2 1 13141 2361 2360 XOR";
"2 1 346 2767 13140 XOR";
"2 1 13140 2360 2828 XOR";
"2 1 346 2360 13139 XOR";
"2 1 2767 2360 13138 XOR";
"2 1 13139 13138 13137 AND";
"2 1 13137 2360 2359 XOR";
"2 1 345 2766 13136 XOR";
"2 1 13136 2359 2827 XOR";
"2 1 345 2359 13135 XOR";
"2 1 2766 2359 13134 XOR";
"2 1 13135 13134 13133 AND";
"2 1 13133 2359 2358 XOR";
"2 1 344 2765 13132 XOR";
"2 1 13132 2358 2826 XOR";
"2 1 344 2358 13131 XOR";
"2 1 2765 2358 13130 XOR";
"2 1 13131 13130 13129 AND";
"2 1 13129 2358 2357 XOR";
"2 1 343 2764 13128 XOR";
"2 1 13128 2357 2825 XOR";
"2 1 343 2357 13127 XOR";
"2 1 2764 2357 13126 XOR";
"2 1 13127 13126 13125 AND";
"2 1 13125 2357 2356 XOR";
"2 1 342 2763 13124 XOR";
"2 1 13124 2356 2824 XOR";
"2 1 342 2356 13123 XOR";
"2 1 2763 2356 13122 XOR";
"2 1 13123 13122 13121 AND";
"2 1 13121 2356 2355 XOR";
"2 1 341 2762 13120 XOR";
"2 1 13120 2355 2823 XOR";
"2 1 341 2355 13119 XOR";
"2 1 2762 2355 13118 XOR";
"2 1 13119 13118 13117 AND";
"2 1 13117 2355 2354 XOR";
"2 1 340 2761 13116 XOR";
"2 1 13116 2354 2822 XOR";
"2 1 340 2354 13115 XOR";
"2 1 2761 2354 13114 XOR";
"2 1 13115 13114 13113 AND";
"2 1 13113 2354 2353 XOR";
"2 1 339 2760 13112 XOR";
"2 1 13112 2353 2821 XOR";
"2 1 339 2353 13111 XOR";
"2 1 2760 2353 13110 XOR";
"2 1 13111 13110 13109 AND";
"2 1 13109 2353 2352 XOR";
"2 1 338 2759 13108 XOR";
"2 1 13108 2352 2820 XOR";
"2 1 338 2352 13107 XOR";
"2 1 2759 2352 13106 XOR";
"2 1 13107 13106 13105 AND";
"2 1 13105 2352 2351 XOR";
"2 1 337 2758 13104 XOR";
"2 1 13104 2351 2819 XOR";
"2 1 337 2351 13103 XOR";
"2 1 2758 2351 13102 XOR";
"2 1 13103 13102 13101 AND";
"2 1 13101 2351 2350 XOR";
"2 1 336 2757 13100 XOR";
"2 1 13100 2350 2818 XOR";
"2 1 336 2350 13099 XOR";
"2 1 2757 2350 13098 XOR";
"2 1 13099 13098 13097 AND";
"2 1 13097 2350 2349 XOR";
"2 1 335 2756 13096 XOR";
"2 1 13096 2349 2817 XOR";
"2 1 335 2349 13095 XOR";
"2 1 2756 2349 13094 XOR";
"2 1 13095 13094 13093 AND";
"2 1 13093 2349 2348 XOR";
"2 1 334 2755 13092 XOR";
"2 1 13092 2348 2816 XOR";
"2 1 334 2348 13091 XOR";
"2 1 2755 2348 13090 XOR";
"2 1 13091 13090 13089 AND";
"2 1 13089 2348 2347 XOR";
"2 1 333 2754 13088 XOR";
"2 1 13088 2347 2815 XOR";
"2 1 333 2347 13087 XOR";
"2 1 2754 2347 13086 XOR";
"2 1 13087 13086 13085 AND";
"2 1 13085 2347 2346 XOR";
"2 1 332 2753 13084 XOR";
"2 1 13084 2346 2814 XOR";
"2 1 332 2346 13083 XOR";
"2 1 2753 2346 13082 XOR";
"2 1 13083 13082 13081 AND";
"2 1 13081 2346 2345 XOR";
"2 1 331 2752 13080 XOR";
"2 1 13080 2345 2813 XOR";
"2 1 331 2345 13079 XOR";
"2 1 2752 2345 13078 XOR";
"2 1 13079 13078 13077 AND";
"2 1 13077 2345 2344 XOR";
"2 1 330 2751 13076 XOR";
"2 1 13076 2344 2812 XOR";
"2 1 330 2344 13075 XOR";
"2 1 2751 2344 13074 XOR";
"2 1 13075 13074 13073 AND";
"2 1 13073 2344 2343 XOR";
"2 1 329 2750 13072 XOR";
"2 1 13072 2343 2811 XOR";
"2 1 329 2343 13071 XOR";
"2 1 2750 2343 13070 XOR";
"2 1 13071 13070 13069 AND";
"2 1 13069 2343 2342 XOR";
"2 1 328 2749 13068 XOR";
"2 1 13068 2342 2810 XOR";
"2 1 328 2342 13067 XOR";
"2 1 2749 2342 13066 XOR";
"2 1 13067 13066 13065 AND";
"2 1 13065 2342 2341 XOR";
"2 1 327 2748 13064 XOR";
"2 1 13064 2341 2809 XOR";
"2 1 327 2341 13063 XOR";
"2 1 2748 2341 13062 XOR";
"2 1 13063 13062 13061 AND";
"2 1 13061 2341 2340 XOR";
"2 1 326 2747 13060 XOR";
"2 1 13060 2340 2808 XOR";
"2 1 326 2340 13059 XOR";
"2 1 2747 2340 13058 XOR";
"2 1 13059 13058 13057 AND";
"2 1 13057 2340 2339 XOR";
"2 1 325 2746 13056 XOR";
"2 1 13056 2339 2807 XOR";
"2 1 325 2339 13055 XOR";
"2 1 2746 2339 13054 XOR";
"2 1 13055 13054 13053 AND";
"2 1 13053 2339 2338 XOR";
"2 1 324 2745 13052 XOR";
"2 1 13052 2338 2806 XOR";
"2 1 324 2338 13051 XOR";
"2 1 2745 2338 13050 XOR";
"2 1 13051 13050 13049 AND";
"2 1 13049 2338 2337 XOR";
"2 1 323 2744 13048 XOR";
"2 1 13048 2337 2805 XOR";
"2 1 323 2337 13047 XOR";
"2 1 2744 2337 13046 XOR";
"2 1 13047 13046 13045 AND";
"2 1 13045 2337 2336 XOR";
"2 1 322 2743 13044 XOR";
"2 1 13044 2336 2804 XOR";
"2 1 322 2336 13043 XOR";
"2 1 2743 2336 13042 XOR";
"2 1 13043 13042 13041 AND";
"2 1 13041 2336 2335 XOR";
"2 1 321 2742 13040 XOR";
"2 1 13040 2335 2803 XOR";
"2 1 321 2335 13039 XOR";
"2 1 2742 2335 13038 XOR";
"2 1 13039 13038 13037 AND";
"2 1 13037 2335 2334 XOR";
"2 1 320 2741 13036 XOR";
"2 1 13036 2334 2802 XOR";
"2 1 320 2334 13035 XOR";
"2 1 2741 2334 13034 XOR";
"2 1 13035 13034 13033 AND";
"2 1 13033 2334 2333 XOR";
"2 1 319 2740 13032 XOR";
"2 1 13032 2333 2801 XOR";
"2 1 319 2333 13031 XOR";
"2 1 2740 2333 13030 XOR";
"2 1 13031 13030 13029 AND";
"2 1 13029 2333 2332 XOR";
"2 1 318 2739 13028 XOR";
"2 1 13028 2332 2800 XOR";
"2 1 318 2332 13027 XOR";
"2 1 2739 2332 13026 XOR";
"2 1 13027 13026 13025 AND";
"2 1 13025 2332 2331 XOR";
"2 1 317 2738 13024 XOR";
"2 1 13024 2331 2799 XOR";
"2 1 317 2331 13023 XOR";
"2 1 2738 2331 13022 XOR";
"2 1 13023 13022 13021 AND";
"2 1 13021 2331 2330 XOR";
"2 1 316 2737 13020 XOR";
"2 1 13020 2330 2798 XOR";
"2 1 435 2856 13019 XOR";
"2 1 13019 2448 2916 XOR";
"2 1 495 2916 13744 XOR";
"2 1 495 2916 2506 AND";
"2 1 435 2448 13018 XOR";
"2 1 2856 2448 13017 XOR";
"2 1 13018 13017 13016 AND";
"2 1 13016 2448 2447 XOR";
"2 1 434 2855 13015 XOR";
"2 1 13015 2447 2915 XOR";
"2 1 434 2447 13014 XOR";
"2 1 2855 2447 13013 XOR";
"2 1 13014 13013 13012 AND";
"2 1 13012 2447 2446 XOR";
"2 1 433 2854 13011 XOR";
"2 1 13011 2446 2914 XOR";
"2 1 433 2446 13010 XOR";
"2 1 2854 2446 13009 XOR";
"2 1 13010 13009 13008 AND";
"2 1 13008 2446 2445 XOR";
"2 1 432 2853 13007 XOR";
"2 1 13007 2445 2913 XOR";
"2 1 432 2445 13006 XOR";
"2 1 2853 2445 13005 XOR";
"2 1 13006 13005 13004 AND";
"2 1 13004 2445 2444 XOR";
"2 1 431 2852 13003 XOR";
"2 1 13003 2444 2912 XOR";
"2 1 431 2444 13002 XOR";
"2 1 2852 2444 13001 XOR";
"2 1 13002 13001 13000 AND";
"2 1 13000 2444 2443 XOR";
"2 1 430 2851 12999 XOR";
"2 1 12999 2443 2911 XOR";
"2 1 430 2443 12998 XOR";
"2 1 2851 2443 12997 XOR";
"2 1 12998 12997 12996 AND";
"2 1 12996 2443 2442 XOR";
"2 1 429 2850 12995 XOR";
"2 1 12995 2442 2910 XOR";
"2 1 429 2442 12994 XOR";
"2 1 2850 2442 12993 XOR";
"2 1 12994 12993 12992 AND";
"2 1 12992 2442 2441 XOR";
"2 1 428 2849 12991 XOR";
"2 1 12991 2441 2909 XOR";
"2 1 428 2441 12990 XOR";
"2 1 2849 2441 12989 XOR";
"2 1 12990 12989 12988 AND";
"2 1 12988 2441 2440 XOR";
"2 1 427 2848 12987 XOR";
"2 1 12987 2440 2908 XOR";
"2 1 427 2440 12986 XOR";
"2 1 2848 2440 12985 XOR";
"2 1 12986 12985 12984 AND";
"2 1 12984 2440 2439 XOR";
"2 1 426 2847 12983 XOR";
"2 1 12983 2439 2907 XOR";
"2 1 426 2439 12982 XOR";
"2 1 2847 2439 12981 XOR";
"2 1 12982 12981 12980 AND";
"2 1 12980 2439 2438 XOR";
"2 1 425 2846 12979 XOR";
"2 1 12979 2438 2906 XOR";
"2 1 425 2438 12978 XOR";
"2 1 2846 2438 12977 XOR";
"2 1 12978 12977 12976 AND";
"2 1 12976 2438 2437 XOR";
"2 1 424 2845 12975 XOR";
"2 1 12975 2437 2905 XOR";
"2 1 424 2437 12974 XOR";
"2 1 2845 2437 12973 XOR";
"2 1 12974 12973 12972 AND";
"2 1 12972 2437 2436 XOR";
"2 1 423 2844 12971 XOR";
"2 1 12971 2436 2904 XOR";
"2 1 423 2436 12970 XOR";
"2 1 2844 2436 12969 XOR";
"2 1 12970 12969 12968 AND";
"2 1 12968 2436 2435 XOR";
"2 1 422 2843 12967 XOR";
"2 1 12967 2435 2903 XOR";
"2 1 422 2435 12966 XOR";
"2 1 2843 2435 12965 XOR";
"2 1 12966 12965 12964 AND";
"2 1 12964 2435 2434 XOR";
"2 1 421 2842 12963 XOR";
"2 1 12963 2434 2902 XOR";
"2 1 421 2434 12962 XOR";
"2 1 2842 2434 12961 XOR";
"2 1 12962 12961 12960 AND";
"2 1 12960 2434 2433 XOR";
"2 1 420 2841 12959 XOR";
"2 1 12959 2433 2901 XOR";
"2 1 420 2433 12958 XOR";
"2 1 2841 2433 12957 XOR";
"2 1 12958 12957 12956 AND";
"2 1 12956 2433 2432 XOR";
"2 1 419 2840 12955 XOR";
"2 1 12955 2432 2900 XOR";
"2 1 419 2432 12954 XOR";
"2 1 2840 2432 12953 XOR";
"2 1 12954 12953 12952 AND";
"2 1 12952 2432 2431 XOR";
"2 1 418 2839 12951 XOR";
"2 1 12951 2431 2899 XOR";
"2 1 418 2431 12950 XOR";
"2 1 2839 2431 12949 XOR";
"2 1 12950 12949 12948 AND";
"2 1 12948 2431 2430 XOR";
"2 1 417 2838 12947 XOR";
"2 1 12947 2430 2898 XOR";
"2 1 417 2430 12946 XOR";
"2 1 2838 2430 12945 XOR";
"2 1 12946 12945 12944 AND";
"2 1 12944 2430 2429 XOR";
"2 1 416 2837 12943 XOR";
"2 1 12943 2429 2897 XOR";
"2 1 416 2429 12942 XOR";
"2 1 2837 2429 12941 XOR";
"2 1 12942 12941 12940 AND";
"2 1 12940 2429 2428 XOR";
"2 1 415 2836 12939 XOR";
"2 1 12939 2428 2896 XOR";
"2 1 415 2428 12938 XOR";
"2 1 2836 2428 12937 XOR";
"2 1 12938 12937 12936 AND";
"2 1 12936 2428 2427 XOR";
"2 1 414 2835 12935 XOR";
"2 1 12935 2427 2895 XOR";
"2 1 414 2427 12934 XOR";
"2 1 2835 2427 12933 XOR";
"2 1 12934 12933 12932 AND";
"2 1 12932 2427 2426 XOR";
"2 1 413 2834 12931 XOR";
"2 1 12931 2426 2894 XOR";
"2 1 413 2426 12930 XOR";
"2 1 2834 2426 12929 XOR";
"2 1 12930 12929 12928 AND";
"2 1 12928 2426 2425 XOR";
"2 1 412 2833 12927 XOR";
"2 1 12927 2425 2893 XOR";
"2 1 412 2425 12926 XOR";
"2 1 2833 2425 12925 XOR";
"2 1 12926 12925 12924 AND";
"2 1 12924 2425 2424 XOR";
"2 1 411 2832 12923 XOR";
"2 1 12923 2424 2892 XOR";
"2 1 411 2424 12922 XOR";
"2 1 2832 2424 12921 XOR";
"2 1 12922 12921 12920 AND";
"2 1 12920 2424 2423 XOR";
"2 1 410 2831 12919 XOR";
"2 1 12919 2423 2891 XOR";
"2 1 410 2423 12918 XOR";
"2 1 2831 2423 12917 XOR";
"2 1 12918 12917 12916 AND";
"2 1 12916 2423 2422 XOR";
"2 1 409 2830 12915 XOR";
"2 1 12915 2422 2890 XOR";
"2 1 409 2422 12914 XOR";
"2 1 2830 2422 12913 XOR";
"2 1 12914 12913 12912 AND";
"2 1 12912 2422 2421 XOR";
"2 1 408 2829 12911 XOR";
"2 1 12911 2421 2889 XOR";
"2 1 408 2421 12910 XOR";
"2 1 2829 2421 12909 XOR";
"2 1 12910 12909 12908 AND";
"2 1 12908 2421 2420 XOR";
"2 1 407 2828 12907 XOR";
"2 1 12907 2420 2888 XOR";
"2 1 407 2420 12906 XOR";
"2 1 2828 2420 12905 XOR";
"2 1 12906 12905 12904 AND";
"2 1 12904 2420 2419 XOR";
"2 1 406 2827 12903 XOR";
"2 1 12903 2419 2887 XOR";
"2 1 406 2419 12902 XOR";
"2 1 2827 2419 12901 XOR";
"2 1 12902 12901 12900 AND";
"2 1 12900 2419 2418 XOR";
"2 1 405 2826 12899 XOR";
"2 1 12899 2418 2886 XOR";
"2 1 405 2418 12898 XOR";
"2 1 2826 2418 12897 XOR";
"2 1 12898 12897 12896 AND";
"2 1 12896 2418 2417 XOR";
"2 1 404 2825 12895 XOR";
"2 1 12895 2417 2885 XOR";
"2 1 404 2417 12894 XOR";
"2 1 2825 2417 12893 XOR";
"2 1 12894 12893 12892 AND";
"2 1 12892 2417 2416 XOR";
"2 1 403 2824 12891 XOR";
"2 1 12891 2416 2884 XOR";
"2 1 403 2416 12890 XOR";
"2 1 2824 2416 12889 XOR";
"2 1 12890 12889 12888 AND";
"2 1 12888 2416 2415 XOR";
"2 1 402 2823 12887 XOR";
"2 1 12887 2415 2883 XOR";
"2 1 402 2415 12886 XOR";
"2 1 2823 2415 12885 XOR";
"2 1 12886 12885 12884 AND";
"2 1 12884 2415 2414 XOR";
"2 1 401 2822 12883 XOR";
"2 1 12883 2414 2882 XOR";
"2 1 401 2414 12882 XOR";
"2 1 2822 2414 12881 XOR";
"2 1 12882 12881 12880 AND";
"2 1 12880 2414 2413 XOR";
"2 1 400 2821 12879 XOR";
"2 1 12879 2413 2881 XOR";
"2 1 400 2413 12878 XOR";
"2 1 2821 2413 12877 XOR";
"2 1 12878 12877 12876 AND";
"2 1 12876 2413 2412 XOR";
"2 1 399 2820 12875 XOR";
"2 1 12875 2412 2880 XOR";
"2 1 399 2412 12874 XOR";
"2 1 2820 2412 12873 XOR";
"2 1 12874 12873 12872 AND";
"2 1 12872 2412 2411 XOR";
"2 1 398 2819 12871 XOR";
"2 1 12871 2411 2879 XOR";
"2 1 398 2411 12870 XOR";
"2 1 2819 2411 12869 XOR";
"2 1 12870 12869 12868 AND";
"2 1 12868 2411 2410 XOR";
"2 1 397 2818 12867 XOR";
"2 1 12867 2410 2878 XOR";
"2 1 397 2410 12866 XOR";
"2 1 2818 2410 12865 XOR";
"2 1 12866 12865 12864 AND";
"2 1 12864 2410 2409 XOR";
"2 1 396 2817 12863 XOR";
"2 1 12863 2409 2877 XOR";
"2 1 396 2409 12862 XOR";
"2 1 2817 2409 12861 XOR";
"2 1 12862 12861 12860 AND";
"2 1 12860 2409 2408 XOR";
"2 1 395 2816 12859 XOR";
"2 1 12859 2408 2876 XOR";
"2 1 395 2408 12858 XOR";
"2 1 2816 2408 12857 XOR";
"2 1 12858 12857 12856 AND";
"2 1 12856 2408 2407 XOR";
"2 1 394 2815 12855 XOR";
"2 1 12855 2407 2875 XOR";
"2 1 394 2407 12854 XOR";
"2 1 2815 2407 12853 XOR";
"2 1 12854 12853 12852 AND";
"2 1 12852 2407 2406 XOR";
"2 1 393 2814 12851 XOR";
"2 1 12851 2406 2874 XOR";
"2 1 393 2406 12850 XOR";
"2 1 2814 2406 12849 XOR";
"2 1 12850 12849 12848 AND";
"2 1 12848 2406 2405 XOR";
"2 1 392 2813 12847 XOR";
"2 1 12847 2405 2873 XOR";
"2 1 392 2405 12846 XOR";
"2 1 2813 2405 12845 XOR";
"2 1 12846 12845 12844 AND";
"2 1 12844 2405 2404 XOR";
"2 1 391 2812 12843 XOR";
"2 1 12843 2404 2872 XOR";
"2 1 391 2404 12842 XOR";
"2 1 2812 2404 12841 XOR";
"2 1 12842 12841 12840 AND";
"2 1 12840 2404 2403 XOR";
"2 1 390 2811 12839 XOR";
"2 1 12839 2403 2871 XOR";
"2 1 390 2403 12838 XOR";
"2 1 2811 2403 12837 XOR";
"2 1 12838 12837 12836 AND";
"2 1 12836 2403 2402 XOR";
"2 1 389 2810 12835 XOR";
"2 1 12835 2402 2870 XOR";
"2 1 389 2402 12834 XOR";
"2 1 2810 2402 12833 XOR";
"2 1 12834 12833 12832 AND";
"2 1 12832 2402 2401 XOR";
"2 1 388 2809 12831 XOR";
"2 1 12831 2401 2869 XOR";
"2 1 388 2401 12830 XOR";
"2 1 2809 2401 12829 XOR";
"2 1 12830 12829 12828 AND";
"2 1 12828 2401 2400 XOR";
"2 1 387 2808 12827 XOR";
"2 1 12827 2400 2868 XOR";
"2 1 387 2400 12826 XOR";
"2 1 2808 2400 12825 XOR";
"2 1 12826 12825 12824 AND";
"2 1 12824 2400 2399 XOR";
"2 1 386 2807 12823 XOR";
"2 1 12823 2399 2867 XOR";
"2 1 386 2399 12822 XOR";
"2 1 2807 2399 12821 XOR";
"2 1 12822 12821 12820 AND";
"2 1 12820 2399 2398 XOR";
"2 1 385 2806 12819 XOR";
"2 1 12819 2398 2866 XOR";
"2 1 385 2398 12818 XOR";
"2 1 2806 2398 12817 XOR";
"2 1 12818 12817 12816 AND";
"2 1 12816 2398 2397 XOR";
"2 1 384 2805 12815 XOR";
"2 1 12815 2397 2865 XOR";
"2 1 384 2397 12814 XOR";
"2 1 2805 2397 12813 XOR";
"2 1 12814 12813 12812 AND";
"2 1 12812 2397 2396 XOR";
"2 1 383 2804 12811 XOR";
"2 1 12811 2396 2864 XOR";
"2 1 383 2396 12810 XOR";
"2 1 2804 2396 12809 XOR";
"2 1 12810 12809 12808 AND";
"2 1 12808 2396 2395 XOR";
"2 1 382 2803 12807 XOR";
"2 1 12807 2395 2863 XOR";
"2 1 382 2395 12806 XOR";
"2 1 2803 2395 12805 XOR";
"2 1 12806 12805 12804 AND";
"2 1 12804 2395 2394 XOR";
"2 1 381 2802 12803 XOR";
"2 1 12803 2394 2862 XOR";
"2 1 381 2394 12802 XOR";
"2 1 2802 2394 12801 XOR";
"2 1 12802 12801 12800 AND";
"2 1 12800 2394 2393 XOR";
"2 1 380 2801 12799 XOR";
"2 1 12799 2393 2861 XOR";
"2 1 380 2393 12798 XOR";
"2 1 2801 2393 12797 XOR";
"2 1 12798 12797 12796 AND";
"2 1 12796 2393 2392 XOR";
"2 1 379 2800 12795 XOR";
"2 1 12795 2392 2860 XOR";
"2 1 379 2392 12794 XOR";
"2 1 2800 2392 12793 XOR";
"2 1 12794 12793 12792 AND";
"2 1 12792 2392 2391 XOR";
"2 1 378 2799 12791 XOR";
"2 1 12791 2391 2859 XOR";
"2 1 378 2391 12790 XOR";
"2 1 2799 2391 12789 XOR";
"2 1 12790 12789 12788 AND";
"2 1 12788 2391 2390 XOR";
"2 1 377 2798 12787 XOR";
"2 1 12787 2390 2858 XOR";
"2 1 494 2915 12786 XOR";
"2 1 12786 2506 2974 XOR";
"2 1 553 2974 13745 XOR";
"2 1 553 2974 2563 AND";
"2 1 494 2506 12785 XOR";
"2 1 2915 2506 12784 XOR";
"2 1 12785 12784 12783 AND";
"2 1 12783 2506 2505 XOR";
"2 1 493 2914 12782 XOR";
"2 1 12782 2505 2973 XOR";
"2 1 493 2505 12781 XOR";
"2 1 2914 2505 12780 XOR";
"2 1 12781 12780 12779 AND";
"2 1 12779 2505 2504 XOR";
"2 1 492 2913 12778 XOR";
"2 1 12778 2504 2972 XOR";
"2 1 492 2504 12777 XOR";
"2 1 2913 2504 12776 XOR";
"2 1 12777 12776 12775 AND";
"2 1 12775 2504 2503 XOR";
"2 1 491 2912 12774 XOR";
"2 1 12774 2503 2971 XOR";
"2 1 491 2503 12773 XOR";
"2 1 2912 2503 12772 XOR";
"2 1 12773 12772 12771 AND";
"2 1 12771 2503 2502 XOR";
"2 1 490 2911 12770 XOR";
"2 1 12770 2502 2970 XOR";
"2 1 490 2502 12769 XOR";
"2 1 2911 2502 12768 XOR";
"2 1 12769 12768 12767 AND";
"2 1 12767 2502 2501 XOR";
"2 1 489 2910 12766 XOR";
"2 1 12766 2501 2969 XOR";
"2 1 489 2501 12765 XOR";
"2 1 2910 2501 12764 XOR";
"2 1 12765 12764 12763 AND";
"2 1 12763 2501 2500 XOR";
"2 1 488 2909 12762 XOR";
"2 1 12762 2500 2968 XOR";
"2 1 488 2500 12761 XOR";
"2 1 2909 2500 12760 XOR";
"2 1 12761 12760 12759 AND";
"2 1 12759 2500 2499 XOR";
"2 1 487 2908 12758 XOR";
"2 1 12758 2499 2967 XOR";
"2 1 487 2499 12757 XOR";
"2 1 2908 2499 12756 XOR";
"2 1 12757 12756 12755 AND";
"2 1 12755 2499 2498 XOR";
"2 1 486 2907 12754 XOR";
"2 1 12754 2498 2966 XOR";
"2 1 486 2498 12753 XOR";
"2 1 2907 2498 12752 XOR";
"2 1 12753 12752 12751 AND";
"2 1 12751 2498 2497 XOR";
"2 1 485 2906 12750 XOR";
"2 1 12750 2497 2965 XOR";
"2 1 485 2497 12749 XOR";
"2 1 2906 2497 12748 XOR";
"2 1 12749 12748 12747 AND";
"2 1 12747 2497 2496 XOR";
"2 1 484 2905 12746 XOR";
"2 1 12746 2496 2964 XOR";
"2 1 484 2496 12745 XOR";
"2 1 2905 2496 12744 XOR";
"2 1 12745 12744 12743 AND";
"2 1 12743 2496 2495 XOR";
"2 1 483 2904 12742 XOR";
"2 1 12742 2495 2963 XOR";
"2 1 483 2495 12741 XOR";
"2 1 2904 2495 12740 XOR";
"2 1 12741 12740 12739 AND";
"2 1 12739 2495 2494 XOR";
"2 1 482 2903 12738 XOR";
"2 1 12738 2494 2962 XOR";
"2 1 482 2494 12737 XOR";
"2 1 2903 2494 12736 XOR";
"2 1 12737 12736 12735 AND";
"2 1 12735 2494 2493 XOR";
"2 1 481 2902 12734 XOR";
"2 1 12734 2493 2961 XOR";
"2 1 481 2493 12733 XOR";
"2 1 2902 2493 12732 XOR";
"2 1 12733 12732 12731 AND";
"2 1 12731 2493 2492 XOR";
"2 1 480 2901 12730 XOR";
"2 1 12730 2492 2960 XOR";
"2 1 480 2492 12729 XOR";
"2 1 2901 2492 12728 XOR";
"2 1 12729 12728 12727 AND";
"2 1 12727 2492 2491 XOR";
"2 1 479 2900 12726 XOR";
"2 1 12726 2491 2959 XOR";
"2 1 479 2491 12725 XOR";
"2 1 2900 2491 12724 XOR";
"2 1 12725 12724 12723 AND";
"2 1 12723 2491 2490 XOR";
"2 1 478 2899 12722 XOR";
"2 1 12722 2490 2958 XOR";
"2 1 478 2490 12721 XOR";
"2 1 2899 2490 12720 XOR";
"2 1 12721 12720 12719 AND";
"2 1 12719 2490 2489 XOR";
"2 1 477 2898 12718 XOR";
"2 1 12718 2489 2957 XOR";
"2 1 477 2489 12717 XOR";
"2 1 2898 2489 12716 XOR";
"2 1 12717 12716 12715 AND";
"2 1 12715 2489 2488 XOR";
"2 1 476 2897 12714 XOR";
"2 1 12714 2488 2956 XOR";
"2 1 476 2488 12713 XOR";
"2 1 2897 2488 12712 XOR";
"2 1 12713 12712 12711 AND";
"2 1 12711 2488 2487 XOR";
"2 1 475 2896 12710 XOR";
"2 1 12710 2487 2955 XOR";
"2 1 475 2487 12709 XOR";
"2 1 2896 2487 12708 XOR";
"2 1 12709 12708 12707 AND";
"2 1 12707 2487 2486 XOR";
"2 1 474 2895 12706 XOR";
"2 1 12706 2486 2954 XOR";
"2 1 474 2486 12705 XOR";
"2 1 2895 2486 12704 XOR";
"2 1 12705 12704 12703 AND";
"2 1 12703 2486 2485 XOR";
"2 1 473 2894 12702 XOR";
"2 1 12702 2485 2953 XOR";
"2 1 473 2485 12701 XOR";
"2 1 2894 2485 12700 XOR";
"2 1 12701 12700 12699 AND";
"2 1 12699 2485 2484 XOR";
"2 1 472 2893 12698 XOR";
"2 1 12698 2484 2952 XOR";
"2 1 472 2484 12697 XOR";
"2 1 2893 2484 12696 XOR";
"2 1 12697 12696 12695 AND";
"2 1 12695 2484 2483 XOR";
"2 1 471 2892 12694 XOR";
"2 1 12694 2483 2951 XOR";
"2 1 471 2483 12693 XOR";
"2 1 2892 2483 12692 XOR";
"2 1 12693 12692 12691 AND";
"2 1 12691 2483 2482 XOR";
"2 1 470 2891 12690 XOR";
"2 1 12690 2482 2950 XOR";
"2 1 470 2482 12689 XOR";
"2 1 2891 2482 12688 XOR";
"2 1 12689 12688 12687 AND";
"2 1 12687 2482 2481 XOR";
"2 1 469 2890 12686 XOR";
"2 1 12686 2481 2949 XOR";
"2 1 469 2481 12685 XOR";
"2 1 2890 2481 12684 XOR";
"2 1 12685 12684 12683 AND";
"2 1 12683 2481 2480 XOR";
"2 1 468 2889 12682 XOR";
"2 1 12682 2480 2948 XOR";
"2 1 468 2480 12681 XOR";
"2 1 2889 2480 12680 XOR";
"2 1 12681 12680 12679 AND";
"2 1 12679 2480 2479 XOR";
"2 1 467 2888 12678 XOR";
"2 1 12678 2479 2947 XOR";
"2 1 467 2479 12677 XOR";
"2 1 2888 2479 12676 XOR";
"2 1 12677 12676 12675 AND";
"2 1 12675 2479 2478 XOR";
"2 1 466 2887 12674 XOR";
"2 1 12674 2478 2946 XOR";
"2 1 466 2478 12673 XOR";
"2 1 2887 2478 12672 XOR";
"2 1 12673 12672 12671 AND";
"2 1 12671 2478 2477 XOR";
"2 1 465 2886 12670 XOR";
"2 1 12670 2477 2945 XOR";
"2 1 465 2477 12669 XOR";
"2 1 2886 2477 12668 XOR";
"2 1 12669 12668 12667 AND";
"2 1 12667 2477 2476 XOR";
"2 1 464 2885 12666 XOR";
"2 1 12666 2476 2944 XOR";
"2 1 464 2476 12665 XOR";
"2 1 2885 2476 12664 XOR";
"2 1 12665 12664 12663 AND";
"2 1 12663 2476 2475 XOR";
"2 1 463 2884 12662 XOR";
"2 1 12662 2475 2943 XOR";
"2 1 463 2475 12661 XOR";
"2 1 2884 2475 12660 XOR";
"2 1 12661 12660 12659 AND";
"2 1 12659 2475 2474 XOR";
"2 1 462 2883 12658 XOR";
"2 1 12658 2474 2942 XOR";
"2 1 462 2474 12657 XOR";
"2 1 2883 2474 12656 XOR";
"2 1 12657 12656 12655 AND";
"2 1 12655 2474 2473 XOR";
"2 1 461 2882 12654 XOR";
"2 1 12654 2473 2941 XOR";
"2 1 461 2473 12653 XOR";
"2 1 2882 2473 12652 XOR";
"2 1 12653 12652 12651 AND";
"2 1 12651 2473 2472 XOR";
"2 1 460 2881 12650 XOR";
"2 1 12650 2472 2940 XOR";
"2 1 460 2472 12649 XOR";
"2 1 2881 2472 12648 XOR";
"2 1 12649 12648 12647 AND";
"2 1 12647 2472 2471 XOR";
"2 1 459 2880 12646 XOR";
"2 1 12646 2471 2939 XOR";
"2 1 459 2471 12645 XOR";
"2 1 2880 2471 12644 XOR";
"2 1 12645 12644 12643 AND";
"2 1 12643 2471 2470 XOR";
"2 1 458 2879 12642 XOR";
"2 1 12642 2470 2938 XOR";
"2 1 458 2470 12641 XOR";
"2 1 2879 2470 12640 XOR";
"2 1 12641 12640 12639 AND";
"2 1 12639 2470 2469 XOR";
"2 1 457 2878 12638 XOR";
"2 1 12638 2469 2937 XOR";
"2 1 457 2469 12637 XOR";
"2 1 2878 2469 12636 XOR";
"2 1 12637 12636 12635 AND";
"2 1 12635 2469 2468 XOR";
"2 1 456 2877 12634 XOR";
"2 1 12634 2468 2936 XOR";
"2 1 456 2468 12633 XOR";
"2 1 2877 2468 12632 XOR";
"2 1 12633 12632 12631 AND";
"2 1 12631 2468 2467 XOR";
"2 1 455 2876 12630 XOR";
"2 1 12630 2467 2935 XOR";
"2 1 455 2467 12629 XOR";
"2 1 2876 2467 12628 XOR";
"2 1 12629 12628 12627 AND";
"2 1 12627 2467 2466 XOR";
"2 1 454 2875 12626 XOR";
"2 1 12626 2466 2934 XOR";
"2 1 454 2466 12625 XOR";
"2 1 2875 2466 12624 XOR";
"2 1 12625 12624 12623 AND";
"2 1 12623 2466 2465 XOR";
"2 1 453 2874 12622 XOR";
"2 1 12622 2465 2933 XOR";
"2 1 453 2465 12621 XOR";
"2 1 2874 2465 12620 XOR";
"2 1 12621 12620 12619 AND";
"2 1 12619 2465 2464 XOR";
"2 1 452 2873 12618 XOR";
"2 1 12618 2464 2932 XOR";
"2 1 511 2932 12393 XOR";
"2 1 452 2464 12617 XOR";
"2 1 2873 2464 12616 XOR";
"2 1 12617 12616 12615 AND";
"2 1 12615 2464 2463 XOR";
"2 1 451 2872 12614 XOR";
"2 1 12614 2463 2931 XOR";
"2 1 510 2931 12389 XOR";
"2 1 451 2463 12613 XOR";
"2 1 2872 2463 12612 XOR";
"2 1 12613 12612 12611 AND";
"2 1 12611 2463 2462 XOR";
"2 1 450 2871 12610 XOR";
"2 1 12610 2462 2930 XOR";
"2 1 509 2930 12385 XOR";
"2 1 450 2462 12609 XOR";
"2 1 2871 2462 12608 XOR";
"2 1 12609 12608 12607 AND";
"2 1 12607 2462 2461 XOR";
"2 1 449 2870 12606 XOR";
"2 1 12606 2461 2929 XOR";
"2 1 508 2929 12381 XOR";
"2 1 449 2461 12605 XOR";
"2 1 2870 2461 12604 XOR";
"2 1 12605 12604 12603 AND";
"2 1 12603 2461 2460 XOR";
"2 1 448 2869 12602 XOR";
"2 1 12602 2460 2928 XOR";
"2 1 507 2928 12377 XOR";
"2 1 448 2460 12601 XOR";
"2 1 2869 2460 12600 XOR";
"2 1 12601 12600 12599 AND";
"2 1 12599 2460 2459 XOR";
"2 1 447 2868 12598 XOR";
"2 1 12598 2459 2927 XOR";
"2 1 506 2927 12373 XOR";
"2 1 447 2459 12597 XOR";
"2 1 2868 2459 12596 XOR";
"2 1 12597 12596 12595 AND";
"2 1 12595 2459 2458 XOR";
"2 1 446 2867 12594 XOR";
"2 1 12594 2458 2926 XOR";
"2 1 505 2926 12369 XOR";
"2 1 446 2458 12593 XOR";
"2 1 2867 2458 12592 XOR";
"2 1 12593 12592 12591 AND";
"2 1 12591 2458 2457 XOR";
"2 1 445 2866 12590 XOR";
"2 1 12590 2457 2925 XOR";
"2 1 504 2925 12365 XOR";
"2 1 445 2457 12589 XOR";
"2 1 2866 2457 12588 XOR";
"2 1 12589 12588 12587 AND";
"2 1 12587 2457 2456 XOR";
"2 1 444 2865 12586 XOR";
"2 1 12586 2456 2924 XOR";
"2 1 503 2924 12361 XOR";
"2 1 444 2456 12585 XOR";
"2 1 2865 2456 12584 XOR";
"2 1 12585 12584 12583 AND";
"2 1 12583 2456 2455 XOR";
"2 1 443 2864 12582 XOR";
"2 1 12582 2455 2923 XOR";
"2 1 502 2923 12357 XOR";
"2 1 443 2455 12581 XOR";
"2 1 2864 2455 12580 XOR";
"2 1 12581 12580 12579 AND";
"2 1 12579 2455 2454 XOR";
"2 1 442 2863 12578 XOR";
"2 1 12578 2454 2922 XOR";
"2 1 501 2922 12353 XOR";
"2 1 442 2454 12577 XOR";
"2 1 2863 2454 12576 XOR";
"2 1 12577 12576 12575 AND";
"2 1 12575 2454 2453 XOR";
"2 1 441 2862 12574 XOR";
"2 1 12574 2453 2921 XOR";
"2 1 500 2921 12349 XOR";
"2 1 441 2453 12573 XOR";
"2 1 2862 2453 12572 XOR";
"2 1 12573 12572 12571 AND";
"2 1 12571 2453 2452 XOR";
"2 1 440 2861 12570 XOR";
"2 1 12570 2452 2920 XOR";
"2 1 499 2920 12345 XOR";
"2 1 440 2452 12569 XOR";
"2 1 2861 2452 12568 XOR";
"2 1 12569 12568 12567 AND";
"2 1 12567 2452 2451 XOR";
"2 1 439 2860 12566 XOR";
"2 1 12566 2451 2919 XOR";
"2 1 498 2919 12341 XOR";
"2 1 439 2451 12565 XOR";
"2 1 2860 2451 12564 XOR";
"2 1 12565 12564 12563 AND";
"2 1 12563 2451 2450 XOR";
"2 1 438 2859 12562 XOR";
"2 1 12562 2450 2918 XOR";
"2 1 497 2918 12337 XOR";
"2 1 438 2450 12561 XOR";
"2 1 2859 2450 12560 XOR";
"2 1 12561 12560 12559 AND";
"2 1 12559 2450 2449 XOR";
"2 1 437 2858 12558 XOR";
"2 1 12558 2449 2917 XOR";
"2 1 496 2917 12333 XOR";
"2 1 552 2973 12557 XOR";
"2 1 12557 2563 3031 XOR";
"2 1 610 3031 13746 XOR";
"2 1 610 3031 2619 AND";
"2 1 552 2563 12556 XOR";
"2 1 2973 2563 12555 XOR";
"2 1 12556 12555 12554 AND";
"2 1 12554 2563 2562 XOR";
"2 1 551 2972 12553 XOR";
"2 1 12553 2562 3030 XOR";
"2 1 3030 2619 12330 XOR";
"2 1 609 3030 12332 XOR";
"2 1 551 2562 12552 XOR";
"2 1 2972 2562 12551 XOR";
"2 1 12552 12551 12550 AND";
"2 1 12550 2562 2561 XOR";
"2 1 550 2971 12549 XOR";
"2 1 12549 2561 3029 XOR";
"2 1 608 3029 12328 XOR";
"2 1 550 2561 12548 XOR";
"2 1 2971 2561 12547 XOR";
"2 1 12548 12547 12546 AND";
"2 1 12546 2561 2560 XOR";
"2 1 549 2970 12545 XOR";
"2 1 12545 2560 3028 XOR";
"2 1 607 3028 12324 XOR";
"2 1 549 2560 12544 XOR";
"2 1 2970 2560 12543 XOR";
"2 1 12544 12543 12542 AND";
"2 1 12542 2560 2559 XOR";
"2 1 548 2969 12541 XOR";
"2 1 12541 2559 3027 XOR";
"2 1 606 3027 12320 XOR";
"2 1 548 2559 12540 XOR";
"2 1 2969 2559 12539 XOR";
"2 1 12540 12539 12538 AND";
"2 1 12538 2559 2558 XOR";
"2 1 547 2968 12537 XOR";
"2 1 12537 2558 3026 XOR";
"2 1 605 3026 12316 XOR";
"2 1 547 2558 12536 XOR";
"2 1 2968 2558 12535 XOR";
"2 1 12536 12535 12534 AND";
"2 1 12534 2558 2557 XOR";
"2 1 546 2967 12533 XOR";
"2 1 12533 2557 3025 XOR";
"2 1 604 3025 12312 XOR";
"2 1 546 2557 12532 XOR";
"2 1 2967 2557 12531 XOR";
"2 1 12532 12531 12530 AND";
"2 1 12530 2557 2556 XOR";
"2 1 545 2966 12529 XOR";
"2 1 12529 2556 3024 XOR";
"2 1 603 3024 12308 XOR";
"2 1 545 2556 12528 XOR";
"2 1 2966 2556 12527 XOR";
"2 1 12528 12527 12526 AND";
"2 1 12526 2556 2555 XOR";
"2 1 544 2965 12525 XOR";
"2 1 12525 2555 3023 XOR";
"2 1 602 3023 12304 XOR";
"2 1 544 2555 12524 XOR";
"2 1 2965 2555 12523 XOR";
"2 1 12524 12523 12522 AND";
"2 1 12522 2555 2554 XOR";
"2 1 543 2964 12521 XOR";
"2 1 12521 2554 3022 XOR";
"2 1 601 3022 12300 XOR";
"2 1 543 2554 12520 XOR";
"2 1 2964 2554 12519 XOR";
"2 1 12520 12519 12518 AND";
"2 1 12518 2554 2553 XOR";
"2 1 542 2963 12517 XOR";
"2 1 12517 2553 3021 XOR";
"2 1 600 3021 12296 XOR";
"2 1 542 2553 12516 XOR";
"2 1 2963 2553 12515 XOR";
"2 1 12516 12515 12514 AND";
"2 1 12514 2553 2552 XOR";
"2 1 541 2962 12513 XOR";
"2 1 12513 2552 3020 XOR";
"2 1 599 3020 12292 XOR";
"2 1 541 2552 12512 XOR";
"2 1 2962 2552 12511 XOR";
"2 1 12512 12511 12510 AND";
"2 1 12510 2552 2551 XOR";
"2 1 540 2961 12509 XOR";
"2 1 12509 2551 3019 XOR";
"2 1 598 3019 12288 XOR";
"2 1 540 2551 12508 XOR";
"2 1 2961 2551 12507 XOR";
"2 1 12508 12507 12506 AND";
"2 1 12506 2551 2550 XOR";
"2 1 539 2960 12505 XOR";
"2 1 12505 2550 3018 XOR";
"2 1 597 3018 12284 XOR";
"2 1 539 2550 12504 XOR";
"2 1 2960 2550 12503 XOR";
"2 1 12504 12503 12502 AND";
"2 1 12502 2550 2549 XOR";
"2 1 538 2959 12501 XOR";
"2 1 12501 2549 3017 XOR";
"2 1 596 3017 12280 XOR";
"2 1 538 2549 12500 XOR";
"2 1 2959 2549 12499 XOR";
"2 1 12500 12499 12498 AND";
"2 1 12498 2549 2548 XOR";
"2 1 537 2958 12497 XOR";
"2 1 12497 2548 3016 XOR";
"2 1 595 3016 12276 XOR";
"2 1 537 2548 12496 XOR";
"2 1 2958 2548 12495 XOR";
"2 1 12496 12495 12494 AND";
"2 1 12494 2548 2547 XOR";
"2 1 536 2957 12493 XOR";
"2 1 12493 2547 3015 XOR";
"2 1 594 3015 12272 XOR";
"2 1 536 2547 12492 XOR";
"2 1 2957 2547 12491 XOR";
"2 1 12492 12491 12490 AND";
"2 1 12490 2547 2546 XOR";
"2 1 535 2956 12489 XOR";
"2 1 12489 2546 3014 XOR";
"2 1 593 3014 12268 XOR";
"2 1 535 2546 12488 XOR";
"2 1 2956 2546 12487 XOR";
"2 1 12488 12487 12486 AND";
"2 1 12486 2546 2545 XOR";
"2 1 534 2955 12485 XOR";
"2 1 12485 2545 3013 XOR";
"2 1 592 3013 12264 XOR";
"2 1 534 2545 12484 XOR";
"2 1 2955 2545 12483 XOR";
"2 1 12484 12483 12482 AND";
"2 1 12482 2545 2544 XOR";
"2 1 533 2954 12481 XOR";
"2 1 12481 2544 3012 XOR";
"2 1 591 3012 12260 XOR";
"2 1 533 2544 12480 XOR";
"2 1 2954 2544 12479 XOR";
"2 1 12480 12479 12478 AND";
"2 1 12478 2544 2543 XOR";
"2 1 532 2953 12477 XOR";
"2 1 12477 2543 3011 XOR";
"2 1 590 3011 12256 XOR";
"2 1 532 2543 12476 XOR";
"2 1 2953 2543 12475 XOR";
"2 1 12476 12475 12474 AND";
"2 1 12474 2543 2542 XOR";
"2 1 531 2952 12473 XOR";
"2 1 12473 2542 3010 XOR";
"2 1 589 3010 12252 XOR";
"2 1 531 2542 12472 XOR";
"2 1 2952 2542 12471 XOR";
"2 1 12472 12471 12470 AND";
"2 1 12470 2542 2541 XOR";
"2 1 530 2951 12469 XOR";
"2 1 12469 2541 3009 XOR";
"2 1 588 3009 12248 XOR";
"2 1 530 2541 12468 XOR";
"2 1 2951 2541 12467 XOR";
"2 1 12468 12467 12466 AND";
"2 1 12466 2541 2540 XOR";
"2 1 529 2950 12465 XOR";
"2 1 12465 2540 3008 XOR";
"2 1 587 3008 12244 XOR";
"2 1 529 2540 12464 XOR";
"2 1 2950 2540 12463 XOR";
"2 1 12464 12463 12462 AND";
"2 1 12462 2540 2539 XOR";
"2 1 528 2949 12461 XOR";
"2 1 12461 2539 3007 XOR";
"2 1 586 3007 12240 XOR";
"2 1 528 2539 12460 XOR";
"2 1 2949 2539 12459 XOR";
"2 1 12460 12459 12458 AND";
"2 1 12458 2539 2538 XOR";
"2 1 527 2948 12457 XOR";
"2 1 12457 2538 3006 XOR";
"2 1 585 3006 12236 XOR";
"2 1 527 2538 12456 XOR";
"2 1 2948 2538 12455 XOR";
"2 1 12456 12455 12454 AND";
"2 1 12454 2538 2537 XOR";
"2 1 526 2947 12453 XOR";
"2 1 12453 2537 3005 XOR";
"2 1 584 3005 12232 XOR";
"2 1 526 2537 12452 XOR";
"2 1 2947 2537 12451 XOR";
"2 1 12452 12451 12450 AND";
"2 1 12450 2537 2536 XOR";
"2 1 525 2946 12449 XOR";
"2 1 12449 2536 3004 XOR";
"2 1 583 3004 12228 XOR";
"2 1 525 2536 12448 XOR";
"2 1 2946 2536 12447 XOR";
"2 1 12448 12447 12446 AND";
"2 1 12446 2536 2535 XOR";
"2 1 524 2945 12445 XOR";
"2 1 12445 2535 3003 XOR";
"2 1 582 3003 12224 XOR";
"2 1 524 2535 12444 XOR";
"2 1 2945 2535 12443 XOR";
"2 1 12444 12443 12442 AND";
"2 1 12442 2535 2534 XOR";
"2 1 523 2944 12441 XOR";
"2 1 12441 2534 3002 XOR";
"2 1 581 3002 12220 XOR";
"2 1 523 2534 12440 XOR";
"2 1 2944 2534 12439 XOR";
"2 1 12440 12439 12438 AND";
"2 1 12438 2534 2533 XOR";
"2 1 522 2943 12437 XOR";
"2 1 12437 2533 3001 XOR";
"2 1 580 3001 12216 XOR";
"2 1 522 2533 12436 XOR";
"2 1 2943 2533 12435 XOR";
"2 1 12436 12435 12434 AND";
"2 1 12434 2533 2532 XOR";
"2 1 521 2942 12433 XOR";
"2 1 12433 2532 3000 XOR";
"2 1 579 3000 12212 XOR";
"2 1 521 2532 12432 XOR";
"2 1 2942 2532 12431 XOR";
"2 1 12432 12431 12430 AND";
"2 1 12430 2532 2531 XOR";
"2 1 520 2941 12429 XOR";
"2 1 12429 2531 2999 XOR";
"2 1 578 2999 12208 XOR";
"2 1 520 2531 12428 XOR";
"2 1 2941 2531 12427 XOR";
"2 1 12428 12427 12426 AND";
"2 1 12426 2531 2530 XOR";
"2 1 519 2940 12425 XOR";
"2 1 12425 2530 2998 XOR";
"2 1 577 2998 12204 XOR";
"2 1 519 2530 12424 XOR";
"2 1 2940 2530 12423 XOR";
"2 1 12424 12423 12422 AND";
"2 1 12422 2530 2529 XOR";
"2 1 518 2939 12421 XOR";
"2 1 12421 2529 2997 XOR";
"2 1 576 2997 12200 XOR";
"2 1 518 2529 12420 XOR";
"2 1 2939 2529 12419 XOR";
"2 1 12420 12419 12418 AND";
"2 1 12418 2529 2528 XOR";
"2 1 517 2938 12417 XOR";
"2 1 12417 2528 2996 XOR";
"2 1 575 2996 12196 XOR";
"2 1 517 2528 12416 XOR";
"2 1 2938 2528 12415 XOR";
"2 1 12416 12415 12414 AND";
"2 1 12414 2528 2527 XOR";
"2 1 516 2937 12413 XOR";
"2 1 12413 2527 2995 XOR";
"2 1 574 2995 12192 XOR";
"2 1 516 2527 12412 XOR";
"2 1 2937 2527 12411 XOR";
"2 1 12412 12411 12410 AND";
"2 1 12410 2527 2526 XOR";
"2 1 515 2936 12409 XOR";
"2 1 12409 2526 2994 XOR";
"2 1 573 2994 12188 XOR";
"2 1 515 2526 12408 XOR";
"2 1 2936 2526 12407 XOR";
"2 1 12408 12407 12406 AND";
"2 1 12406 2526 2525 XOR";
"2 1 514 2935 12405 XOR";
"2 1 12405 2525 2993 XOR";
"2 1 572 2993 12184 XOR";
"2 1 514 2525 12404 XOR";
"2 1 2935 2525 12403 XOR";
"2 1 12404 12403 12402 AND";
"2 1 12402 2525 2524 XOR";
"2 1 513 2934 12401 XOR";
"2 1 12401 2524 2992 XOR";
"2 1 571 2992 12180 XOR";
"2 1 513 2524 12400 XOR";
"2 1 2934 2524 12399 XOR";
"2 1 12400 12399 12398 AND";
"2 1 12398 2524 2523 XOR";
"2 1 2933 2523 12395 XOR";
"2 1 512 2933 12397 XOR";
"2 1 12397 2523 2991 XOR";
"2 1 570 2991 12176 XOR";
"2 1 512 2523 12396 XOR";
"2 1 12396 12395 12394 AND";
"2 1 12394 2523 2522 XOR";
"2 1 2932 2522 12391 XOR";
"2 1 12393 2522 2990 XOR";
"2 1 569 2990 12172 XOR";
"2 1 511 2522 12392 XOR";
"2 1 12392 12391 12390 AND";
"2 1 12390 2522 2521 XOR";
"2 1 2931 2521 12387 XOR";
"2 1 12389 2521 2989 XOR";
"2 1 568 2989 12168 XOR";
"2 1 510 2521 12388 XOR";
"2 1 12388 12387 12386 AND";
"2 1 12386 2521 2520 XOR";
"2 1 2930 2520 12383 XOR";
"2 1 12385 2520 2988 XOR";
"2 1 567 2988 12164 XOR";
"2 1 509 2520 12384 XOR";
"2 1 12384 12383 12382 AND";
"2 1 12382 2520 2519 XOR";
"2 1 2929 2519 12379 XOR";
"2 1 12381 2519 2987 XOR";
"2 1 566 2987 12160 XOR";
"2 1 508 2519 12380 XOR";
"2 1 12380 12379 12378 AND";
"2 1 12378 2519 2518 XOR";
"2 1 2928 2518 12375 XOR";
"2 1 12377 2518 2986 XOR";
"2 1 565 2986 12156 XOR";
"2 1 507 2518 12376 XOR";
"2 1 12376 12375 12374 AND";
"2 1 12374 2518 2517 XOR";
"2 1 2927 2517 12371 XOR";
"2 1 12373 2517 2985 XOR";
"2 1 564 2985 12152 XOR";
"2 1 506 2517 12372 XOR";
"2 1 12372 12371 12370 AND";
"2 1 12370 2517 2516 XOR";
"2 1 2926 2516 12367 XOR";
"2 1 12369 2516 2984 XOR";
"2 1 563 2984 12148 XOR";
"2 1 505 2516 12368 XOR";
"2 1 12368 12367 12366 AND";
"2 1 12366 2516 2515 XOR";
"2 1 2925 2515 12363 XOR";
"2 1 12365 2515 2983 XOR";
"2 1 562 2983 12144 XOR";
"2 1 504 2515 12364 XOR";
"2 1 12364 12363 12362 AND";
"2 1 12362 2515 2514 XOR";
"2 1 2924 2514 12359 XOR";
"2 1 12361 2514 2982 XOR";
"2 1 561 2982 12140 XOR";
"2 1 503 2514 12360 XOR";
"2 1 12360 12359 12358 AND";
"2 1 12358 2514 2513 XOR";
"2 1 2923 2513 12355 XOR";
"2 1 12357 2513 2981 XOR";
"2 1 560 2981 12136 XOR";
"2 1 502 2513 12356 XOR";
"2 1 12356 12355 12354 AND";
"2 1 12354 2513 2512 XOR";
"2 1 2922 2512 12351 XOR";
"2 1 12353 2512 2980 XOR";
"2 1 559 2980 12132 XOR";
"2 1 501 2512 12352 XOR";
"2 1 12352 12351 12350 AND";
"2 1 12350 2512 2511 XOR";
"2 1 2921 2511 12347 XOR";
"2 1 12349 2511 2979 XOR";
"2 1 558 2979 12128 XOR";
"2 1 500 2511 12348 XOR";
"2 1 12348 12347 12346 AND";
"2 1 12346 2511 2510 XOR";
"2 1 2920 2510 12343 XOR";
"2 1 12345 2510 2978 XOR";
"2 1 557 2978 12124 XOR";
"2 1 499 2510 12344 XOR";
"2 1 12344 12343 12342 AND";
"2 1 12342 2510 2509 XOR";
"2 1 2919 2509 12339 XOR";
"2 1 12341 2509 2977 XOR";
"2 1 556 2977 12120 XOR";
"2 1 498 2509 12340 XOR";
"2 1 12340 12339 12338 AND";
"2 1 12338 2509 2508 XOR";
"2 1 2918 2508 12335 XOR";
"2 1 12337 2508 2976 XOR";
"2 1 555 2976 12116 XOR";
"2 1 497 2508 12336 XOR";
"2 1 12336 12335 12334 AND";
"2 1 12334 2508 2507 XOR";
"2 1 12333 2507 2975 XOR";
"2 1 554 2975 12112 XOR";
"2 1 12332 2619 3087 XOR";
"2 1 666 3087 13747 XOR";
"2 1 666 3087 2674 AND";
"2 1 665 2674 12110 XOR";
"2 1 609 2619 12331 XOR";
"2 1 12331 12330 12329 AND";
"2 1 12329 2619 2618 XOR";
"2 1 3029 2618 12326 XOR";
"2 1 12328 2618 3086 XOR";
"2 1 665 3086 12111 XOR";
"2 1 12111 2674 3142 XOR";
"2 1 721 3142 13748 XOR";
"2 1 721 3142 3196 AND";
"2 1 3086 2674 12109 XOR";
"2 1 12110 12109 12108 AND";
"2 1 12108 2674 2673 XOR";
"2 1 664 2673 12106 XOR";
"2 1 720 3196 11893 XOR";
"2 1 608 2618 12327 XOR";
"2 1 12327 12326 12325 AND";
"2 1 12325 2618 2617 XOR";
"2 1 3028 2617 12322 XOR";
"2 1 12324 2617 3085 XOR";
"2 1 664 3085 12107 XOR";
"2 1 12107 2673 3141 XOR";
"2 1 3085 2673 12105 XOR";
"2 1 12106 12105 12104 AND";
"2 1 12104 2673 2672 XOR";
"2 1 663 2672 12102 XOR";
"2 1 720 3141 11894 XOR";
"2 1 11894 3196 3600 XOR";
"2 1 775 3600 13749 XOR";
"2 1 775 3600 3249 AND";
"2 1 3141 3196 11892 XOR";
"2 1 11893 11892 11891 AND";
"2 1 11891 3196 3195 XOR";
"2 1 719 3195 11889 XOR";
"2 1 774 3249 11680 XOR";
"2 1 607 2617 12323 XOR";
"2 1 12323 12322 12321 AND";
"2 1 12321 2617 2616 XOR";
"2 1 3027 2616 12318 XOR";
"2 1 12320 2616 3084 XOR";
"2 1 663 3084 12103 XOR";
"2 1 12103 2672 3140 XOR";
"2 1 3084 2672 12101 XOR";
"2 1 12102 12101 12100 AND";
"2 1 12100 2672 2671 XOR";
"2 1 662 2671 12098 XOR";
"2 1 719 3140 11890 XOR";
"2 1 11890 3195 3599 XOR";
"2 1 3140 3195 11888 XOR";
"2 1 11889 11888 11887 AND";
"2 1 11887 3195 3194 XOR";
"2 1 718 3194 11885 XOR";
"2 1 774 3599 11681 XOR";
"2 1 11681 3249 3653 XOR";
"2 1 828 3653 13750 XOR";
"2 1 828 3653 3301 AND";
"2 1 3599 3249 11679 XOR";
"2 1 11680 11679 11678 AND";
"2 1 11678 3249 3248 XOR";
"2 1 773 3248 11676 XOR";
"2 1 827 3301 11471 XOR";
"2 1 606 2616 12319 XOR";
"2 1 12319 12318 12317 AND";
"2 1 12317 2616 2615 XOR";
"2 1 3026 2615 12314 XOR";
"2 1 12316 2615 3083 XOR";
"2 1 662 3083 12099 XOR";
"2 1 12099 2671 3139 XOR";
"2 1 3083 2671 12097 XOR";
"2 1 12098 12097 12096 AND";
"2 1 12096 2671 2670 XOR";
"2 1 661 2670 12094 XOR";
"2 1 718 3139 11886 XOR";
"2 1 11886 3194 3598 XOR";
"2 1 3139 3194 11884 XOR";
"2 1 11885 11884 11883 AND";
"2 1 11883 3194 3193 XOR";
"2 1 717 3193 11881 XOR";
"2 1 773 3598 11677 XOR";
"2 1 11677 3248 3652 XOR";
"2 1 3598 3248 11675 XOR";
"2 1 11676 11675 11674 AND";
"2 1 11674 3248 3247 XOR";
"2 1 772 3247 11672 XOR";
"2 1 827 3652 11472 XOR";
"2 1 11472 3301 3705 XOR";
"2 1 880 3705 13751 XOR";
"2 1 880 3705 3352 AND";
"2 1 3652 3301 11470 XOR";
"2 1 11471 11470 11469 AND";
"2 1 11469 3301 3300 XOR";
"2 1 826 3300 11467 XOR";
"2 1 879 3352 11266 XOR";
"2 1 605 2615 12315 XOR";
"2 1 12315 12314 12313 AND";
"2 1 12313 2615 2614 XOR";
"2 1 604 2614 12311 XOR";
"2 1 3025 2614 12310 XOR";
"2 1 12311 12310 12309 AND";
"2 1 12309 2614 2613 XOR";
"2 1 12308 2613 3081 XOR";
"2 1 12312 2614 3082 XOR";
"2 1 3024 2613 12306 XOR";
"2 1 603 2613 12307 XOR";
"2 1 12307 12306 12305 AND";
"2 1 12305 2613 2612 XOR";
"2 1 12304 2612 3080 XOR";
"2 1 3023 2612 12302 XOR";
"2 1 602 2612 12303 XOR";
"2 1 12303 12302 12301 AND";
"2 1 12301 2612 2611 XOR";
"2 1 12300 2611 3079 XOR";
"2 1 601 2611 12299 XOR";
"2 1 3022 2611 12298 XOR";
"2 1 12299 12298 12297 AND";
"2 1 12297 2611 2610 XOR";
"2 1 12296 2610 3078 XOR";
"2 1 600 2610 12295 XOR";
"2 1 3021 2610 12294 XOR";
"2 1 12295 12294 12293 AND";
"2 1 12293 2610 2609 XOR";
"2 1 12292 2609 3077 XOR";
"2 1 599 2609 12291 XOR";
"2 1 3020 2609 12290 XOR";
"2 1 12291 12290 12289 AND";
"2 1 12289 2609 2608 XOR";
"2 1 12288 2608 3076 XOR";
"2 1 3019 2608 12286 XOR";
"2 1 598 2608 12287 XOR";
"2 1 12287 12286 12285 AND";
"2 1 12285 2608 2607 XOR";
"2 1 12284 2607 3075 XOR";
"2 1 3018 2607 12282 XOR";
"2 1 597 2607 12283 XOR";
"2 1 12283 12282 12281 AND";
"2 1 12281 2607 2606 XOR";
"2 1 12280 2606 3074 XOR";
"2 1 596 2606 12279 XOR";
"2 1 3017 2606 12278 XOR";
"2 1 12279 12278 12277 AND";
"2 1 12277 2606 2605 XOR";
"2 1 12276 2605 3073 XOR";
"2 1 595 2605 12275 XOR";
"2 1 3016 2605 12274 XOR";
"2 1 12275 12274 12273 AND";
"2 1 12273 2605 2604 XOR";
"2 1 12272 2604 3072 XOR";
"2 1 594 2604 12271 XOR";
"2 1 3015 2604 12270 XOR";
"2 1 12271 12270 12269 AND";
"2 1 12269 2604 2603 XOR";
"2 1 12268 2603 3071 XOR";
"2 1 3014 2603 12266 XOR";
"2 1 593 2603 12267 XOR";
"2 1 12267 12266 12265 AND";
"2 1 12265 2603 2602 XOR";
"2 1 12264 2602 3070 XOR";
"2 1 3013 2602 12262 XOR";
"2 1 592 2602 12263 XOR";
"2 1 12263 12262 12261 AND";
"2 1 12261 2602 2601 XOR";
"2 1 12260 2601 3069 XOR";
"2 1 591 2601 12259 XOR";
"2 1 3012 2601 12258 XOR";
"2 1 12259 12258 12257 AND";
"2 1 12257 2601 2600 XOR";
"2 1 12256 2600 3068 XOR";
"2 1 590 2600 12255 XOR";
"2 1 3011 2600 12254 XOR";
"2 1 12255 12254 12253 AND";
"2 1 12253 2600 2599 XOR";
"2 1 12252 2599 3067 XOR";
"2 1 589 2599 12251 XOR";
"2 1 3010 2599 12250 XOR";
"2 1 12251 12250 12249 AND";
"2 1 12249 2599 2598 XOR";
"2 1 12248 2598 3066 XOR";
"2 1 3009 2598 12246 XOR";
"2 1 588 2598 12247 XOR";
"2 1 12247 12246 12245 AND";
"2 1 12245 2598 2597 XOR";
"2 1 12244 2597 3065 XOR";
"2 1 3008 2597 12242 XOR";
"2 1 587 2597 12243 XOR";
"2 1 12243 12242 12241 AND";
"2 1 12241 2597 2596 XOR";
"2 1 12240 2596 3064 XOR";
"2 1 586 2596 12239 XOR";
"2 1 3007 2596 12238 XOR";
"2 1 12239 12238 12237 AND";
"2 1 12237 2596 2595 XOR";
"2 1 12236 2595 3063 XOR";
"2 1 585 2595 12235 XOR";
"2 1 3006 2595 12234 XOR";
"2 1 12235 12234 12233 AND";
"2 1 12233 2595 2594 XOR";
"2 1 12232 2594 3062 XOR";
"2 1 584 2594 12231 XOR";
"2 1 3005 2594 12230 XOR";
"2 1 12231 12230 12229 AND";
"2 1 12229 2594 2593 XOR";
"2 1 12228 2593 3061 XOR";
"2 1 3004 2593 12226 XOR";
"2 1 583 2593 12227 XOR";
"2 1 12227 12226 12225 AND";
"2 1 12225 2593 2592 XOR";
"2 1 12224 2592 3060 XOR";
"2 1 3003 2592 12222 XOR";
"2 1 582 2592 12223 XOR";
"2 1 12223 12222 12221 AND";
"2 1 12221 2592 2591 XOR";
"2 1 12220 2591 3059 XOR";
"2 1 581 2591 12219 XOR";
"2 1 3002 2591 12218 XOR";
"2 1 12219 12218 12217 AND";
"2 1 12217 2591 2590 XOR";
"2 1 12216 2590 3058 XOR";
"2 1 580 2590 12215 XOR";
"2 1 3001 2590 12214 XOR";
"2 1 12215 12214 12213 AND";
"2 1 12213 2590 2589 XOR";
"2 1 12212 2589 3057 XOR";
"2 1 579 2589 12211 XOR";
"2 1 3000 2589 12210 XOR";
"2 1 12211 12210 12209 AND";
"2 1 12209 2589 2588 XOR";
"2 1 12208 2588 3056 XOR";
"2 1 2999 2588 12206 XOR";
"2 1 578 2588 12207 XOR";
"2 1 12207 12206 12205 AND";
"2 1 12205 2588 2587 XOR";
"2 1 12204 2587 3055 XOR";
"2 1 2998 2587 12202 XOR";
"2 1 577 2587 12203 XOR";
"2 1 12203 12202 12201 AND";
"2 1 12201 2587 2586 XOR";
"2 1 12200 2586 3054 XOR";
"2 1 576 2586 12199 XOR";
"2 1 2997 2586 12198 XOR";
"2 1 12199 12198 12197 AND";
"2 1 12197 2586 2585 XOR";
"2 1 12196 2585 3053 XOR";
"2 1 575 2585 12195 XOR";
"2 1 2996 2585 12194 XOR";
"2 1 12195 12194 12193 AND";
"2 1 12193 2585 2584 XOR";
"2 1 12192 2584 3052 XOR";
"2 1 574 2584 12191 XOR";
"2 1 2995 2584 12190 XOR";
"2 1 12191 12190 12189 AND";
"2 1 12189 2584 2583 XOR";
"2 1 12188 2583 3051 XOR";
"2 1 2994 2583 12186 XOR";
"2 1 573 2583 12187 XOR";
"2 1 12187 12186 12185 AND";
"2 1 12185 2583 2582 XOR";
"2 1 12184 2582 3050 XOR";
"2 1 2993 2582 12182 XOR";
"2 1 572 2582 12183 XOR";
"2 1 12183 12182 12181 AND";
"2 1 12181 2582 2581 XOR";
"2 1 12180 2581 3049 XOR";
"2 1 571 2581 12179 XOR";
"2 1 2992 2581 12178 XOR";
"2 1 12179 12178 12177 AND";
"2 1 12177 2581 2580 XOR";
"2 1 12176 2580 3048 XOR";
"2 1 570 2580 12175 XOR";
"2 1 2991 2580 12174 XOR";
"2 1 12175 12174 12173 AND";
"2 1 12173 2580 2579 XOR";
"2 1 12172 2579 3047 XOR";
"2 1 569 2579 12171 XOR";
"2 1 2990 2579 12170 XOR";
"2 1 12171 12170 12169 AND";
"2 1 12169 2579 2578 XOR";
"2 1 12168 2578 3046 XOR";
"2 1 2989 2578 12166 XOR";
"2 1 568 2578 12167 XOR";
"2 1 12167 12166 12165 AND";
"2 1 12165 2578 2577 XOR";
"2 1 12164 2577 3045 XOR";
"2 1 2988 2577 12162 XOR";
"2 1 567 2577 12163 XOR";
"2 1 12163 12162 12161 AND";
"2 1 12161 2577 2576 XOR";
"2 1 12160 2576 3044 XOR";
"2 1 566 2576 12159 XOR";
"2 1 2987 2576 12158 XOR";
"2 1 12159 12158 12157 AND";
"2 1 12157 2576 2575 XOR";
"2 1 12156 2575 3043 XOR";
"2 1 565 2575 12155 XOR";
"2 1 2986 2575 12154 XOR";
"2 1 12155 12154 12153 AND";
"2 1 12153 2575 2574 XOR";
"2 1 12152 2574 3042 XOR";
"2 1 564 2574 12151 XOR";
"2 1 2985 2574 12150 XOR";
"2 1 12151 12150 12149 AND";
"2 1 12149 2574 2573 XOR";
"2 1 12148 2573 3041 XOR";
"2 1 2984 2573 12146 XOR";
"2 1 563 2573 12147 XOR";
"2 1 12147 12146 12145 AND";
"2 1 12145 2573 2572 XOR";
"2 1 12144 2572 3040 XOR";
"2 1 2983 2572 12142 XOR";
"2 1 562 2572 12143 XOR";
"2 1 12143 12142 12141 AND";
"2 1 12141 2572 2571 XOR";
"2 1 12140 2571 3039 XOR";
"2 1 561 2571 12139 XOR";
"2 1 2982 2571 12138 XOR";
"2 1 12139 12138 12137 AND";
"2 1 12137 2571 2570 XOR";
"2 1 12136 2570 3038 XOR";
"2 1 560 2570 12135 XOR";
"2 1 2981 2570 12134 XOR";
"2 1 12135 12134 12133 AND";
"2 1 12133 2570 2569 XOR";
"2 1 12132 2569 3037 XOR";
"2 1 559 2569 12131 XOR";
"2 1 2980 2569 12130 XOR";
"2 1 12131 12130 12129 AND";
"2 1 12129 2569 2568 XOR";
"2 1 12128 2568 3036 XOR";
"2 1 2979 2568 12126 XOR";
"2 1 558 2568 12127 XOR";
"2 1 12127 12126 12125 AND";
"2 1 12125 2568 2567 XOR";
"2 1 12124 2567 3035 XOR";
"2 1 2978 2567 12122 XOR";
"2 1 557 2567 12123 XOR";
"2 1 12123 12122 12121 AND";
"2 1 12121 2567 2566 XOR";
"2 1 12120 2566 3034 XOR";
"2 1 556 2566 12119 XOR";
"2 1 2977 2566 12118 XOR";
"2 1 12119 12118 12117 AND";
"2 1 12117 2566 2565 XOR";
"2 1 12116 2565 3033 XOR";
"2 1 555 2565 12115 XOR";
"2 1 2976 2565 12114 XOR";
"2 1 12115 12114 12113 AND";
"2 1 12113 2565 2564 XOR";
"2 1 12112 2564 3032 XOR";
"2 1 661 3082 12095 XOR";
"2 1 12095 2670 3138 XOR";
"2 1 660 3081 12091 XOR";
"2 1 3082 2670 12093 XOR";
"2 1 12094 12093 12092 AND";
"2 1 12092 2670 2669 XOR";
"2 1 12091 2669 3137 XOR";
"2 1 660 2669 12090 XOR";
"2 1 659 3080 12087 XOR";
"2 1 3081 2669 12089 XOR";
"2 1 12090 12089 12088 AND";
"2 1 12088 2669 2668 XOR";
"2 1 12087 2668 3136 XOR";
"2 1 659 2668 12086 XOR";
"2 1 658 3079 12083 XOR";
"2 1 3080 2668 12085 XOR";
"2 1 12086 12085 12084 AND";
"2 1 12084 2668 2667 XOR";
"2 1 12083 2667 3135 XOR";
"2 1 658 2667 12082 XOR";
"2 1 657 3078 12079 XOR";
"2 1 3079 2667 12081 XOR";
"2 1 12082 12081 12080 AND";
"2 1 12080 2667 2666 XOR";
"2 1 12079 2666 3134 XOR";
"2 1 657 2666 12078 XOR";
"2 1 656 3077 12075 XOR";
"2 1 3078 2666 12077 XOR";
"2 1 12078 12077 12076 AND";
"2 1 12076 2666 2665 XOR";
"2 1 12075 2665 3133 XOR";
"2 1 656 2665 12074 XOR";
"2 1 655 3076 12071 XOR";
"2 1 3077 2665 12073 XOR";
"2 1 12074 12073 12072 AND";
"2 1 12072 2665 2664 XOR";
"2 1 12071 2664 3132 XOR";
"2 1 655 2664 12070 XOR";
"2 1 654 3075 12067 XOR";
"2 1 3076 2664 12069 XOR";
"2 1 12070 12069 12068 AND";
"2 1 12068 2664 2663 XOR";
"2 1 12067 2663 3131 XOR";
"2 1 654 2663 12066 XOR";
"2 1 653 3074 12063 XOR";
"2 1 3075 2663 12065 XOR";
"2 1 12066 12065 12064 AND";
"2 1 12064 2663 2662 XOR";
"2 1 12063 2662 3130 XOR";
"2 1 653 2662 12062 XOR";
"2 1 652 3073 12059 XOR";
"2 1 3074 2662 12061 XOR";
"2 1 12062 12061 12060 AND";
"2 1 12060 2662 2661 XOR";
"2 1 12059 2661 3129 XOR";
"2 1 652 2661 12058 XOR";
"2 1 651 3072 12055 XOR";
"2 1 3073 2661 12057 XOR";
"2 1 12058 12057 12056 AND";
"2 1 12056 2661 2660 XOR";
"2 1 12055 2660 3128 XOR";
"2 1 651 2660 12054 XOR";
"2 1 650 3071 12051 XOR";
"2 1 3072 2660 12053 XOR";
"2 1 12054 12053 12052 AND";
"2 1 12052 2660 2659 XOR";
"2 1 12051 2659 3127 XOR";
"2 1 650 2659 12050 XOR";
"2 1 649 3070 12047 XOR";
"2 1 3071 2659 12049 XOR";
"2 1 12050 12049 12048 AND";
"2 1 12048 2659 2658 XOR";
"2 1 12047 2658 3126 XOR";
"2 1 649 2658 12046 XOR";
"2 1 648 3069 12043 XOR";
"2 1 3070 2658 12045 XOR";
"2 1 12046 12045 12044 AND";
"2 1 12044 2658 2657 XOR";
"2 1 12043 2657 3125 XOR";
"2 1 648 2657 12042 XOR";
"2 1 647 3068 12039 XOR";
"2 1 3069 2657 12041 XOR";
"2 1 12042 12041 12040 AND";
"2 1 12040 2657 2656 XOR";
"2 1 12039 2656 3124 XOR";
"2 1 647 2656 12038 XOR";
"2 1 646 3067 12035 XOR";
"2 1 3068 2656 12037 XOR";
"2 1 12038 12037 12036 AND";
"2 1 12036 2656 2655 XOR";
"2 1 12035 2655 3123 XOR";
"2 1 646 2655 12034 XOR";
"2 1 645 3066 12031 XOR";
"2 1 3067 2655 12033 XOR";
"2 1 12034 12033 12032 AND";
"2 1 12032 2655 2654 XOR";
"2 1 12031 2654 3122 XOR";
"2 1 645 2654 12030 XOR";
"2 1 644 3065 12027 XOR";
"2 1 3066 2654 12029 XOR";
"2 1 12030 12029 12028 AND";
"2 1 12028 2654 2653 XOR";
"2 1 12027 2653 3121 XOR";
"2 1 644 2653 12026 XOR";
"2 1 643 3064 12023 XOR";
"2 1 3065 2653 12025 XOR";
"2 1 12026 12025 12024 AND";
"2 1 12024 2653 2652 XOR";
"2 1 12023 2652 3120 XOR";
"2 1 643 2652 12022 XOR";
"2 1 642 3063 12019 XOR";
"2 1 3064 2652 12021 XOR";
"2 1 12022 12021 12020 AND";
"2 1 12020 2652 2651 XOR";
"2 1 12019 2651 3119 XOR";
"2 1 642 2651 12018 XOR";
"2 1 641 3062 12015 XOR";
"2 1 3063 2651 12017 XOR";
"2 1 12018 12017 12016 AND";
"2 1 12016 2651 2650 XOR";
"2 1 12015 2650 3118 XOR";
"2 1 641 2650 12014 XOR";
"2 1 640 3061 12011 XOR";
"2 1 3062 2650 12013 XOR";
"2 1 12014 12013 12012 AND";
"2 1 12012 2650 2649 XOR";
"2 1 12011 2649 3117 XOR";
"2 1 640 2649 12010 XOR";
"2 1 639 3060 12007 XOR";
"2 1 3061 2649 12009 XOR";
"2 1 12010 12009 12008 AND";
"2 1 12008 2649 2648 XOR";
"2 1 12007 2648 3116 XOR";
"2 1 639 2648 12006 XOR";
"2 1 638 3059 12003 XOR";
"2 1 3060 2648 12005 XOR";
"2 1 12006 12005 12004 AND";
"2 1 12004 2648 2647 XOR";
"2 1 12003 2647 3115 XOR";
"2 1 638 2647 12002 XOR";
"2 1 637 3058 11999 XOR";
"2 1 3059 2647 12001 XOR";
"2 1 12002 12001 12000 AND";
"2 1 12000 2647 2646 XOR";
"2 1 11999 2646 3114 XOR";
"2 1 637 2646 11998 XOR";
"2 1 636 3057 11995 XOR";
"2 1 3058 2646 11997 XOR";
"2 1 11998 11997 11996 AND";
"2 1 11996 2646 2645 XOR";
"2 1 11995 2645 3113 XOR";
"2 1 636 2645 11994 XOR";
"2 1 635 3056 11991 XOR";
"2 1 3057 2645 11993 XOR";
"2 1 11994 11993 11992 AND";
"2 1 11992 2645 2644 XOR";
"2 1 11991 2644 3112 XOR";
"2 1 635 2644 11990 XOR";
"2 1 634 3055 11987 XOR";
"2 1 3056 2644 11989 XOR";
"2 1 11990 11989 11988 AND";
"2 1 11988 2644 2643 XOR";
"2 1 11987 2643 3111 XOR";
"2 1 634 2643 11986 XOR";
"2 1 633 3054 11983 XOR";
"2 1 3055 2643 11985 XOR";
"2 1 11986 11985 11984 AND";
"2 1 11984 2643 2642 XOR";
"2 1 11983 2642 3110 XOR";
"2 1 633 2642 11982 XOR";
"2 1 632 3053 11979 XOR";
"2 1 3054 2642 11981 XOR";
"2 1 11982 11981 11980 AND";
"2 1 11980 2642 2641 XOR";
"2 1 11979 2641 3109 XOR";
"2 1 632 2641 11978 XOR";
"2 1 631 3052 11975 XOR";
"2 1 3053 2641 11977 XOR";
"2 1 11978 11977 11976 AND";
"2 1 11976 2641 2640 XOR";
"2 1 11975 2640 3108 XOR";
"2 1 631 2640 11974 XOR";
"2 1 630 3051 11971 XOR";
"2 1 3052 2640 11973 XOR";
"2 1 11974 11973 11972 AND";
"2 1 11972 2640 2639 XOR";
"2 1 11971 2639 3107 XOR";
"2 1 630 2639 11970 XOR";
"2 1 629 3050 11967 XOR";
"2 1 3051 2639 11969 XOR";
"2 1 11970 11969 11968 AND";
"2 1 11968 2639 2638 XOR";
"2 1 11967 2638 3106 XOR";
"2 1 629 2638 11966 XOR";
"2 1 628 3049 11963 XOR";
"2 1 3050 2638 11965 XOR";
"2 1 11966 11965 11964 AND";
"2 1 11964 2638 2637 XOR";
"2 1 11963 2637 3105 XOR";
"2 1 628 2637 11962 XOR";
"2 1 627 3048 11959 XOR";
"2 1 3049 2637 11961 XOR";
"2 1 11962 11961 11960 AND";
"2 1 11960 2637 2636 XOR";
"2 1 11959 2636 3104 XOR";
"2 1 627 2636 11958 XOR";
"2 1 626 3047 11955 XOR";
"2 1 3048 2636 11957 XOR";
"2 1 11958 11957 11956 AND";
"2 1 11956 2636 2635 XOR";
"2 1 11955 2635 3103 XOR";
"2 1 626 2635 11954 XOR";
"2 1 625 3046 11951 XOR";
"2 1 3047 2635 11953 XOR";
"2 1 11954 11953 11952 AND";
"2 1 11952 2635 2634 XOR";
"2 1 11951 2634 3102 XOR";
"2 1 625 2634 11950 XOR";
"2 1 624 3045 11947 XOR";
"2 1 3046 2634 11949 XOR";
"2 1 11950 11949 11948 AND";
"2 1 11948 2634 2633 XOR";
"2 1 11947 2633 3101 XOR";
"2 1 624 2633 11946 XOR";
"2 1 623 3044 11943 XOR";
"2 1 3045 2633 11945 XOR";
"2 1 11946 11945 11944 AND";
"2 1 11944 2633 2632 XOR";
"2 1 11943 2632 3100 XOR";
"2 1 623 2632 11942 XOR";
"2 1 622 3043 11939 XOR";
"2 1 3044 2632 11941 XOR";
"2 1 11942 11941 11940 AND";
"2 1 11940 2632 2631 XOR";
"2 1 11939 2631 3099 XOR";
"2 1 622 2631 11938 XOR";
"2 1 621 3042 11935 XOR";
"2 1 3043 2631 11937 XOR";
"2 1 11938 11937 11936 AND";
"2 1 11936 2631 2630 XOR";
"2 1 11935 2630 3098 XOR";
"2 1 621 2630 11934 XOR";
"2 1 620 3041 11931 XOR";
"2 1 3042 2630 11933 XOR";
"2 1 11934 11933 11932 AND";
"2 1 11932 2630 2629 XOR";
"2 1 11931 2629 3097 XOR";
"2 1 620 2629 11930 XOR";
"2 1 619 3040 11927 XOR";
"2 1 3041 2629 11929 XOR";
"2 1 11930 11929 11928 AND";
"2 1 11928 2629 2628 XOR";
"2 1 11927 2628 3096 XOR";
"2 1 619 2628 11926 XOR";
"2 1 618 3039 11923 XOR";
"2 1 3040 2628 11925 XOR";
"2 1 11926 11925 11924 AND";
"2 1 11924 2628 2627 XOR";
"2 1 11923 2627 3095 XOR";
"2 1 618 2627 11922 XOR";
"2 1 617 3038 11919 XOR";
"2 1 3039 2627 11921 XOR";
"2 1 11922 11921 11920 AND";
"2 1 11920 2627 2626 XOR";
"2 1 11919 2626 3094 XOR";
"2 1 617 2626 11918 XOR";
"2 1 616 3037 11915 XOR";
"2 1 3038 2626 11917 XOR";
"2 1 11918 11917 11916 AND";
"2 1 11916 2626 2625 XOR";
"2 1 11915 2625 3093 XOR";
"2 1 616 2625 11914 XOR";
"2 1 615 3036 11911 XOR";
"2 1 3037 2625 11913 XOR";
"2 1 11914 11913 11912 AND";
"2 1 11912 2625 2624 XOR";
"2 1 11911 2624 3092 XOR";
"2 1 615 2624 11910 XOR";
"2 1 614 3035 11907 XOR";
"2 1 3036 2624 11909 XOR";
"2 1 11910 11909 11908 AND";
"2 1 11908 2624 2623 XOR";
"2 1 11907 2623 3091 XOR";
"2 1 614 2623 11906 XOR";
"2 1 613 3034 11903 XOR";
"2 1 3035 2623 11905 XOR";
"2 1 11906 11905 11904 AND";
"2 1 11904 2623 2622 XOR";
"2 1 11903 2622 3090 XOR";
"2 1 613 2622 11902 XOR";
"2 1 612 3033 11899 XOR";
"2 1 3034 2622 11901 XOR";
"2 1 11902 11901 11900 AND";
"2 1 11900 2622 2621 XOR";
"2 1 11899 2621 3089 XOR";
"2 1 612 2621 11898 XOR";
"2 1 611 3032 11895 XOR";
"2 1 3033 2621 11897 XOR";
"2 1 11898 11897 11896 AND";
"2 1 11896 2621 2620 XOR";
"2 1 11895 2620 3088 XOR";
"2 1 717 3138 11882 XOR";
"2 1 11882 3193 3597 XOR";
"2 1 3138 3193 11880 XOR";
"2 1 11881 11880 11879 AND";
"2 1 11879 3193 3192 XOR";
"2 1 716 3137 11878 XOR";
"2 1 11878 3192 3596 XOR";
"2 1 3137 3192 11876 XOR";
"2 1 716 3192 11877 XOR";
"2 1 11877 11876 11875 AND";
"2 1 11875 3192 3191 XOR";
"2 1 715 3136 11874 XOR";
"2 1 11874 3191 3595 XOR";
"2 1 3136 3191 11872 XOR";
"2 1 715 3191 11873 XOR";
"2 1 11873 11872 11871 AND";
"2 1 11871 3191 3190 XOR";
"2 1 714 3135 11870 XOR";
"2 1 11870 3190 3594 XOR";
"2 1 3135 3190 11868 XOR";
"2 1 714 3190 11869 XOR";
"2 1 11869 11868 11867 AND";
"2 1 11867 3190 3189 XOR";
"2 1 3134 3189 11864 XOR";
"2 1 713 3134 11866 XOR";
"2 1 11866 3189 3593 XOR";
"2 1 713 3189 11865 XOR";
"2 1 11865 11864 11863 AND";
"2 1 11863 3189 3188 XOR";
"2 1 712 3188 11861 XOR";
"2 1 712 3133 11862 XOR";
"2 1 11862 3188 3592 XOR";
"2 1 3133 3188 11860 XOR";
"2 1 11861 11860 11859 AND";
"2 1 11859 3188 3187 XOR";
"2 1 711 3187 11857 XOR";
"2 1 711 3132 11858 XOR";
"2 1 11858 3187 3591 XOR";
"2 1 3132 3187 11856 XOR";
"2 1 11857 11856 11855 AND";
"2 1 11855 3187 3186 XOR";
"2 1 710 3186 11853 XOR";
"2 1 710 3131 11854 XOR";
"2 1 11854 3186 3590 XOR";
"2 1 3131 3186 11852 XOR";
"2 1 11853 11852 11851 AND";
"2 1 11851 3186 3185 XOR";
"2 1 709 3185 11849 XOR";
"2 1 709 3130 11850 XOR";
"2 1 11850 3185 3589 XOR";
"2 1 3130 3185 11848 XOR";
"2 1 11849 11848 11847 AND";
"2 1 11847 3185 3184 XOR";
"2 1 708 3184 11845 XOR";
"2 1 708 3129 11846 XOR";
"2 1 11846 3184 3588 XOR";
"2 1 3129 3184 11844 XOR";
"2 1 11845 11844 11843 AND";
"2 1 11843 3184 3183 XOR";
"2 1 707 3183 11841 XOR";
"2 1 707 3128 11842 XOR";
"2 1 11842 3183 3587 XOR";
"2 1 3128 3183 11840 XOR";
"2 1 11841 11840 11839 AND";
"2 1 11839 3183 3182 XOR";
"2 1 706 3182 11837 XOR";
"2 1 706 3127 11838 XOR";
"2 1 11838 3182 3586 XOR";
"2 1 3127 3182 11836 XOR";
"2 1 11837 11836 11835 AND";
"2 1 11835 3182 3181 XOR";
"2 1 705 3181 11833 XOR";
"2 1 705 3126 11834 XOR";
"2 1 11834 3181 3585 XOR";
"2 1 760 3585 11625 XOR";
"2 1 3126 3181 11832 XOR";
"2 1 11833 11832 11831 AND";
"2 1 11831 3181 3180 XOR";
"2 1 704 3180 11829 XOR";
"2 1 704 3125 11830 XOR";
"2 1 11830 3180 3584 XOR";
"2 1 3125 3180 11828 XOR";
"2 1 11829 11828 11827 AND";
"2 1 11827 3180 3179 XOR";
"2 1 703 3179 11825 XOR";
"2 1 703 3124 11826 XOR";
"2 1 11826 3179 3583 XOR";
"2 1 3124 3179 11824 XOR";
"2 1 11825 11824 11823 AND";
"2 1 11823 3179 3178 XOR";
"2 1 702 3178 11821 XOR";
"2 1 702 3123 11822 XOR";
"2 1 11822 3178 3582 XOR";
"2 1 3123 3178 11820 XOR";
"2 1 11821 11820 11819 AND";
"2 1 11819 3178 3177 XOR";
"2 1 701 3177 11817 XOR";
"2 1 701 3122 11818 XOR";
"2 1 11818 3177 3581 XOR";
"2 1 3122 3177 11816 XOR";
"2 1 11817 11816 11815 AND";
"2 1 11815 3177 3176 XOR";
"2 1 700 3176 11813 XOR";
"2 1 700 3121 11814 XOR";
"2 1 11814 3176 3580 XOR";
"2 1 3121 3176 11812 XOR";
"2 1 11813 11812 11811 AND";
"2 1 11811 3176 3175 XOR";
"2 1 699 3175 11809 XOR";
"2 1 699 3120 11810 XOR";
"2 1 11810 3175 3579 XOR";
"2 1 3120 3175 11808 XOR";
"2 1 11809 11808 11807 AND";
"2 1 11807 3175 3174 XOR";
"2 1 698 3174 11805 XOR";
"2 1 698 3119 11806 XOR";
"2 1 11806 3174 3578 XOR";
"2 1 3119 3174 11804 XOR";
"2 1 11805 11804 11803 AND";
"2 1 11803 3174 3173 XOR";
"2 1 697 3173 11801 XOR";
"2 1 697 3118 11802 XOR";
"2 1 11802 3173 3577 XOR";
"2 1 3118 3173 11800 XOR";
"2 1 11801 11800 11799 AND";
"2 1 11799 3173 3172 XOR";
"2 1 696 3172 11797 XOR";
"2 1 696 3117 11798 XOR";
"2 1 11798 3172 3576 XOR";
"2 1 3117 3172 11796 XOR";
"2 1 11797 11796 11795 AND";
"2 1 11795 3172 3171 XOR";
"2 1 695 3171 11793 XOR";
"2 1 695 3116 11794 XOR";
"2 1 11794 3171 3575 XOR";
"2 1 3116 3171 11792 XOR";
"2 1 11793 11792 11791 AND";
"2 1 11791 3171 3170 XOR";
"2 1 694 3170 11789 XOR";
"2 1 694 3115 11790 XOR";
"2 1 11790 3170 3574 XOR";
"2 1 3115 3170 11788 XOR";
"2 1 11789 11788 11787 AND";
"2 1 11787 3170 3169 XOR";
"2 1 693 3169 11785 XOR";
"2 1 693 3114 11786 XOR";
"2 1 11786 3169 3573 XOR";
"2 1 3114 3169 11784 XOR";
"2 1 11785 11784 11783 AND";
"2 1 11783 3169 3168 XOR";
"2 1 692 3168 11781 XOR";
"2 1 692 3113 11782 XOR";
"2 1 11782 3168 3572 XOR";
"2 1 3113 3168 11780 XOR";
"2 1 11781 11780 11779 AND";
"2 1 11779 3168 3167 XOR";
"2 1 691 3167 11777 XOR";
"2 1 691 3112 11778 XOR";
"2 1 11778 3167 3571 XOR";
"2 1 3112 3167 11776 XOR";
"2 1 11777 11776 11775 AND";
"2 1 11775 3167 3166 XOR";
"2 1 690 3166 11773 XOR";
"2 1 690 3111 11774 XOR";
"2 1 11774 3166 3570 XOR";
"2 1 3111 3166 11772 XOR";
"2 1 11773 11772 11771 AND";
"2 1 11771 3166 3165 XOR";
"2 1 689 3165 11769 XOR";
"2 1 689 3110 11770 XOR";
"2 1 11770 3165 3569 XOR";
"2 1 3110 3165 11768 XOR";
"2 1 11769 11768 11767 AND";
"2 1 11767 3165 3164 XOR";
"2 1 688 3164 11765 XOR";
"2 1 688 3109 11766 XOR";
"2 1 11766 3164 3568 XOR";
"2 1 3109 3164 11764 XOR";
"2 1 11765 11764 11763 AND";
"2 1 11763 3164 3163 XOR";
"2 1 687 3163 11761 XOR";
"2 1 687 3108 11762 XOR";
"2 1 11762 3163 3567 XOR";
"2 1 3108 3163 11760 XOR";
"2 1 11761 11760 11759 AND";
"2 1 11759 3163 3162 XOR";
"2 1 686 3162 11757 XOR";
"2 1 686 3107 11758 XOR";
"2 1 11758 3162 3566 XOR";
"2 1 3107 3162 11756 XOR";
"2 1 11757 11756 11755 AND";
"2 1 11755 3162 3161 XOR";
"2 1 685 3161 11753 XOR";
"2 1 685 3106 11754 XOR";
"2 1 11754 3161 3565 XOR";
"2 1 3106 3161 11752 XOR";
"2 1 11753 11752 11751 AND";
"2 1 11751 3161 3160 XOR";
"2 1 684 3160 11749 XOR";
"2 1 684 3105 11750 XOR";
"2 1 11750 3160 3564 XOR";
"2 1 3105 3160 11748 XOR";
"2 1 11749 11748 11747 AND";
"2 1 11747 3160 3159 XOR";
"2 1 683 3159 11745 XOR";
"2 1 683 3104 11746 XOR";
"2 1 11746 3159 3563 XOR";
"2 1 3104 3159 11744 XOR";
"2 1 11745 11744 11743 AND";
"2 1 11743 3159 3158 XOR";
"2 1 682 3158 11741 XOR";
"2 1 682 3103 11742 XOR";
"2 1 11742 3158 3562 XOR";
"2 1 3103 3158 11740 XOR";
"2 1 11741 11740 11739 AND";
"2 1 11739 3158 3157 XOR";
"2 1 681 3157 11737 XOR";
"2 1 681 3102 11738 XOR";
"2 1 11738 3157 3561 XOR";
"2 1 3102 3157 11736 XOR";
"2 1 11737 11736 11735 AND";
"2 1 11735 3157 3156 XOR";
"2 1 680 3156 11733 XOR";
"2 1 680 3101 11734 XOR";
"2 1 11734 3156 3560 XOR";
"2 1 3101 3156 11732 XOR";
"2 1 11733 11732 11731 AND";
"2 1 11731 3156 3155 XOR";
"2 1 679 3155 11729 XOR";
"2 1 679 3100 11730 XOR";
"2 1 11730 3155 3559 XOR";
"2 1 3100 3155 11728 XOR";
"2 1 11729 11728 11727 AND";
"2 1 11727 3155 3154 XOR";
"2 1 678 3154 11725 XOR";
"2 1 678 3099 11726 XOR";
"2 1 11726 3154 3558 XOR";
"2 1 3099 3154 11724 XOR";
"2 1 11725 11724 11723 AND";
"2 1 11723 3154 3153 XOR";
"2 1 677 3153 11721 XOR";
"2 1 677 3098 11722 XOR";
"2 1 11722 3153 3557 XOR";
"2 1 3098 3153 11720 XOR";
"2 1 11721 11720 11719 AND";
"2 1 11719 3153 3152 XOR";
"2 1 676 3152 11717 XOR";
"2 1 676 3097 11718 XOR";
"2 1 11718 3152 3556 XOR";
"2 1 3097 3152 11716 XOR";
"2 1 11717 11716 11715 AND";
"2 1 11715 3152 3151 XOR";
"2 1 675 3151 11713 XOR";
"2 1 675 3096 11714 XOR";
"2 1 11714 3151 3555 XOR";
"2 1 3096 3151 11712 XOR";
"2 1 11713 11712 11711 AND";
"2 1 11711 3151 3150 XOR";
"2 1 674 3150 11709 XOR";
"2 1 674 3095 11710 XOR";
"2 1 11710 3150 3554 XOR";
"2 1 3095 3150 11708 XOR";
"2 1 11709 11708 11707 AND";
"2 1 11707 3150 3149 XOR";
"2 1 673 3149 11705 XOR";
"2 1 673 3094 11706 XOR";
"2 1 11706 3149 3553 XOR";
"2 1 3094 3149 11704 XOR";
"2 1 11705 11704 11703 AND";
"2 1 11703 3149 3148 XOR";
"2 1 672 3148 11701 XOR";
"2 1 672 3093 11702 XOR";
"2 1 11702 3148 3552 XOR";
"2 1 3093 3148 11700 XOR";
"2 1 11701 11700 11699 AND";
"2 1 11699 3148 3147 XOR";
"2 1 671 3147 11697 XOR";
"2 1 671 3092 11698 XOR";
"2 1 11698 3147 3551 XOR";
"2 1 3092 3147 11696 XOR";
"2 1 11697 11696 11695 AND";
"2 1 11695 3147 3146 XOR";
"2 1 670 3146 11693 XOR";
"2 1 670 3091 11694 XOR";
"2 1 11694 3146 3550 XOR";
"2 1 3091 3146 11692 XOR";
"2 1 11693 11692 11691 AND";
"2 1 11691 3146 3145 XOR";
"2 1 669 3145 11689 XOR";
"2 1 669 3090 11690 XOR";
"2 1 11690 3145 3549 XOR";
"2 1 3090 3145 11688 XOR";
"2 1 11689 11688 11687 AND";
"2 1 11687 3145 3144 XOR";
"2 1 668 3144 11685 XOR";
"2 1 668 3089 11686 XOR";
"2 1 11686 3144 3548 XOR";
"2 1 3089 3144 11684 XOR";
"2 1 11685 11684 11683 AND";
"2 1 11683 3144 3143 XOR";
"2 1 667 3088 11682 XOR";
"2 1 11682 3143 3547 XOR";
"2 1 772 3597 11673 XOR";
"2 1 11673 3247 3651 XOR";
"2 1 771 3596 11669 XOR";
"2 1 3597 3247 11671 XOR";
"2 1 11672 11671 11670 AND";
"2 1 11670 3247 3246 XOR";
"2 1 11669 3246 3650 XOR";
"2 1 771 3246 11668 XOR";
"2 1 770 3595 11665 XOR";
"2 1 3596 3246 11667 XOR";
"2 1 11668 11667 11666 AND";
"2 1 11666 3246 3245 XOR";
"2 1 11665 3245 3649 XOR";
"2 1 770 3245 11664 XOR";
"2 1 769 3594 11661 XOR";
"2 1 3595 3245 11663 XOR";
"2 1 11664 11663 11662 AND";
"2 1 11662 3245 3244 XOR";
"2 1 11661 3244 3648 XOR";
"2 1 769 3244 11660 XOR";
"2 1 768 3593 11657 XOR";
"2 1 3594 3244 11659 XOR";
"2 1 11660 11659 11658 AND";
"2 1 11658 3244 3243 XOR";
"2 1 11657 3243 3647 XOR";
"2 1 768 3243 11656 XOR";
"2 1 767 3592 11653 XOR";
"2 1 3593 3243 11655 XOR";
"2 1 11656 11655 11654 AND";
"2 1 11654 3243 3242 XOR";
"2 1 11653 3242 3646 XOR";
"2 1 767 3242 11652 XOR";
"2 1 766 3591 11649 XOR";
"2 1 3592 3242 11651 XOR";
"2 1 11652 11651 11650 AND";
"2 1 11650 3242 3241 XOR";
"2 1 11649 3241 3645 XOR";
"2 1 766 3241 11648 XOR";
"2 1 765 3590 11645 XOR";
"2 1 3591 3241 11647 XOR";
"2 1 11648 11647 11646 AND";
"2 1 11646 3241 3240 XOR";
"2 1 11645 3240 3644 XOR";
"2 1 765 3240 11644 XOR";
"2 1 764 3589 11641 XOR";
"2 1 3590 3240 11643 XOR";
"2 1 11644 11643 11642 AND";
"2 1 11642 3240 3239 XOR";
"2 1 11641 3239 3643 XOR";
"2 1 764 3239 11640 XOR";
"2 1 763 3588 11637 XOR";
"2 1 3589 3239 11639 XOR";
"2 1 11640 11639 11638 AND";
"2 1 11638 3239 3238 XOR";
"2 1 11637 3238 3642 XOR";
"2 1 763 3238 11636 XOR";
"2 1 762 3587 11633 XOR";
"2 1 3588 3238 11635 XOR";
"2 1 11636 11635 11634 AND";
"2 1 11634 3238 3237 XOR";
"2 1 11633 3237 3641 XOR";
"2 1 762 3237 11632 XOR";
"2 1 761 3586 11629 XOR";
"2 1 3587 3237 11631 XOR";
"2 1 11632 11631 11630 AND";
"2 1 11630 3237 3236 XOR";
"2 1 11629 3236 3640 XOR";
"2 1 761 3236 11628 XOR";
"2 1 3586 3236 11627 XOR";
"2 1 11628 11627 11626 AND";
"2 1 11626 3236 3235 XOR";
"2 1 11625 3235 3639 XOR";
"2 1 3585 3235 11623 XOR";
"2 1 760 3235 11624 XOR";
"2 1 11624 11623 11622 AND";
"2 1 11622 3235 3234 XOR";
"2 1 759 3584 11621 XOR";
"2 1 11621 3234 3638 XOR";
"2 1 3584 3234 11619 XOR";
"2 1 759 3234 11620 XOR";
"2 1 11620 11619 11618 AND";
"2 1 11618 3234 3233 XOR";
"2 1 758 3583 11617 XOR";
"2 1 11617 3233 3637 XOR";
"2 1 3583 3233 11615 XOR";
"2 1 758 3233 11616 XOR";
"2 1 11616 11615 11614 AND";
"2 1 11614 3233 3232 XOR";
"2 1 757 3582 11613 XOR";
"2 1 11613 3232 3636 XOR";
"2 1 3582 3232 11611 XOR";
"2 1 757 3232 11612 XOR";
"2 1 11612 11611 11610 AND";
"2 1 11610 3232 3231 XOR";
"2 1 756 3581 11609 XOR";
"2 1 11609 3231 3635 XOR";
"2 1 3581 3231 11607 XOR";
"2 1 756 3231 11608 XOR";
"2 1 11608 11607 11606 AND";
"2 1 11606 3231 3230 XOR";
"2 1 755 3580 11605 XOR";
"2 1 11605 3230 3634 XOR";
"2 1 3580 3230 11603 XOR";
"2 1 755 3230 11604 XOR";
"2 1 11604 11603 11602 AND";
"2 1 11602 3230 3229 XOR";
"2 1 754 3579 11601 XOR";
"2 1 11601 3229 3633 XOR";
"2 1 3579 3229 11599 XOR";
"2 1 754 3229 11600 XOR";
"2 1 11600 11599 11598 AND";
"2 1 11598 3229 3228 XOR";
"2 1 753 3578 11597 XOR";
"2 1 11597 3228 3632 XOR";
"2 1 3578 3228 11595 XOR";
"2 1 753 3228 11596 XOR";
"2 1 11596 11595 11594 AND";
"2 1 11594 3228 3227 XOR";
"2 1 752 3577 11593 XOR";
"2 1 11593 3227 3631 XOR";
"2 1 3577 3227 11591 XOR";
"2 1 752 3227 11592 XOR";
"2 1 11592 11591 11590 AND";
"2 1 11590 3227 3226 XOR";
"2 1 751 3576 11589 XOR";
"2 1 11589 3226 3630 XOR";
"2 1 3576 3226 11587 XOR";
"2 1 751 3226 11588 XOR";
"2 1 11588 11587 11586 AND";
"2 1 11586 3226 3225 XOR";
"2 1 750 3575 11585 XOR";
"2 1 11585 3225 3629 XOR";
"2 1 3575 3225 11583 XOR";
"2 1 750 3225 11584 XOR";
"2 1 11584 11583 11582 AND";
"2 1 11582 3225 3224 XOR";
"2 1 749 3574 11581 XOR";
"2 1 11581 3224 3628 XOR";
"2 1 3574 3224 11579 XOR";
"2 1 749 3224 11580 XOR";
"2 1 11580 11579 11578 AND";
"2 1 11578 3224 3223 XOR";
"2 1 748 3573 11577 XOR";
"2 1 11577 3223 3627 XOR";
"2 1 3573 3223 11575 XOR";
"2 1 748 3223 11576 XOR";
"2 1 11576 11575 11574 AND";
"2 1 11574 3223 3222 XOR";
"2 1 747 3572 11573 XOR";
"2 1 11573 3222 3626 XOR";
"2 1 3572 3222 11571 XOR";
"2 1 747 3222 11572 XOR";
"2 1 11572 11571 11570 AND";
"2 1 11570 3222 3221 XOR";
"2 1 746 3571 11569 XOR";
"2 1 11569 3221 3625 XOR";
"2 1 3571 3221 11567 XOR";
"2 1 746 3221 11568 XOR";
"2 1 11568 11567 11566 AND";
"2 1 11566 3221 3220 XOR";
"2 1 745 3570 11565 XOR";
"2 1 11565 3220 3624 XOR";
"2 1 3570 3220 11563 XOR";
"2 1 745 3220 11564 XOR";
"2 1 11564 11563 11562 AND";
"2 1 11562 3220 3219 XOR";
"2 1 744 3569 11561 XOR";
"2 1 11561 3219 3623 XOR";
"2 1 3569 3219 11559 XOR";
"2 1 744 3219 11560 XOR";
"2 1 11560 11559 11558 AND";
"2 1 11558 3219 3218 XOR";
"2 1 743 3568 11557 XOR";
"2 1 11557 3218 3622 XOR";
"2 1 3568 3218 11555 XOR";
"2 1 743 3218 11556 XOR";
"2 1 11556 11555 11554 AND";
"2 1 11554 3218 3217 XOR";
"2 1 742 3567 11553 XOR";
"2 1 11553 3217 3621 XOR";
"2 1 3567 3217 11551 XOR";
"2 1 742 3217 11552 XOR";
"2 1 11552 11551 11550 AND";
"2 1 11550 3217 3216 XOR";
"2 1 741 3566 11549 XOR";
"2 1 11549 3216 3620 XOR";
"2 1 3566 3216 11547 XOR";
"2 1 741 3216 11548 XOR";
"2 1 11548 11547 11546 AND";
"2 1 11546 3216 3215 XOR";
"2 1 740 3565 11545 XOR";
"2 1 11545 3215 3619 XOR";
"2 1 3565 3215 11543 XOR";
"2 1 740 3215 11544 XOR";
"2 1 11544 11543 11542 AND";
"2 1 11542 3215 3214 XOR";
"2 1 739 3564 11541 XOR";
"2 1 11541 3214 3618 XOR";
"2 1 3564 3214 11539 XOR";
"2 1 739 3214 11540 XOR";
"2 1 11540 11539 11538 AND";
"2 1 11538 3214 3213 XOR";
"2 1 738 3563 11537 XOR";
"2 1 11537 3213 3617 XOR";
"2 1 3563 3213 11535 XOR";
"2 1 738 3213 11536 XOR";
"2 1 11536 11535 11534 AND";
"2 1 11534 3213 3212 XOR";
"2 1 737 3562 11533 XOR";
"2 1 11533 3212 3616 XOR";
"2 1 3562 3212 11531 XOR";
"2 1 737 3212 11532 XOR";
"2 1 11532 11531 11530 AND";
"2 1 11530 3212 3211 XOR";
"2 1 736 3561 11529 XOR";
"2 1 11529 3211 3615 XOR";
"2 1 3561 3211 11527 XOR";
"2 1 736 3211 11528 XOR";
"2 1 11528 11527 11526 AND";
"2 1 11526 3211 3210 XOR";
"2 1 735 3560 11525 XOR";
"2 1 11525 3210 3614 XOR";
"2 1 3560 3210 11523 XOR";
"2 1 735 3210 11524 XOR";
"2 1 11524 11523 11522 AND";
"2 1 11522 3210 3209 XOR";
"2 1 734 3559 11521 XOR";
"2 1 11521 3209 3613 XOR";
"2 1 3559 3209 11519 XOR";
"2 1 734 3209 11520 XOR";
"2 1 11520 11519 11518 AND";
"2 1 11518 3209 3208 XOR";
"2 1 733 3558 11517 XOR";
"2 1 11517 3208 3612 XOR";
"2 1 3558 3208 11515 XOR";
"2 1 733 3208 11516 XOR";
"2 1 11516 11515 11514 AND";
"2 1 11514 3208 3207 XOR";
"2 1 732 3557 11513 XOR";
"2 1 11513 3207 3611 XOR";
"2 1 3557 3207 11511 XOR";
"2 1 732 3207 11512 XOR";
"2 1 11512 11511 11510 AND";
"2 1 11510 3207 3206 XOR";
"2 1 731 3556 11509 XOR";
"2 1 11509 3206 3610 XOR";
"2 1 3556 3206 11507 XOR";
"2 1 731 3206 11508 XOR";
"2 1 11508 11507 11506 AND";
"2 1 11506 3206 3205 XOR";
"2 1 730 3555 11505 XOR";
"2 1 11505 3205 3609 XOR";
"2 1 3555 3205 11503 XOR";
"2 1 730 3205 11504 XOR";
"2 1 11504 11503 11502 AND";
"2 1 11502 3205 3204 XOR";
"2 1 729 3554 11501 XOR";
"2 1 11501 3204 3608 XOR";
"2 1 3554 3204 11499 XOR";
"2 1 729 3204 11500 XOR";
"2 1 11500 11499 11498 AND";
"2 1 11498 3204 3203 XOR";
"2 1 728 3553 11497 XOR";
"2 1 11497 3203 3607 XOR";
"2 1 3553 3203 11495 XOR";
"2 1 728 3203 11496 XOR";
"2 1 11496 11495 11494 AND";
"2 1 11494 3203 3202 XOR";
"2 1 727 3552 11493 XOR";
"2 1 11493 3202 3606 XOR";
"2 1 3552 3202 11491 XOR";
"2 1 727 3202 11492 XOR";
"2 1 11492 11491 11490 AND";
"2 1 11490 3202 3201 XOR";
"2 1 726 3551 11489 XOR";
"2 1 11489 3201 3605 XOR";
"2 1 3551 3201 11487 XOR";
"2 1 726 3201 11488 XOR";
"2 1 11488 11487 11486 AND";
"2 1 11486 3201 3200 XOR";
"2 1 725 3550 11485 XOR";
"2 1 11485 3200 3604 XOR";
"2 1 3550 3200 11483 XOR";
"2 1 725 3200 11484 XOR";
"2 1 11484 11483 11482 AND";
"2 1 11482 3200 3199 XOR";
"2 1 724 3549 11481 XOR";
"2 1 11481 3199 3603 XOR";
"2 1 3549 3199 11479 XOR";
"2 1 724 3199 11480 XOR";
"2 1 11480 11479 11478 AND";
"2 1 11478 3199 3198 XOR";
"2 1 723 3548 11477 XOR";
"2 1 11477 3198 3602 XOR";
"2 1 3548 3198 11475 XOR";
"2 1 723 3198 11476 XOR";
"2 1 11476 11475 11474 AND";
"2 1 11474 3198 3197 XOR";
"2 1 722 3547 11473 XOR";
"2 1 11473 3197 3601 XOR";
"2 1 826 3651 11468 XOR";
"2 1 11468 3300 3704 XOR";
"2 1 3651 3300 11466 XOR";
"2 1 11467 11466 11465 AND";
"2 1 11465 3300 3299 XOR";
"2 1 825 3299 11463 XOR";
"2 1 825 3650 11464 XOR";
"2 1 11464 3299 3703 XOR";
"2 1 3650 3299 11462 XOR";
"2 1 11463 11462 11461 AND";
"2 1 11461 3299 3298 XOR";
"2 1 824 3298 11459 XOR";
"2 1 824 3649 11460 XOR";
"2 1 11460 3298 3702 XOR";
"2 1 3649 3298 11458 XOR";
"2 1 11459 11458 11457 AND";
"2 1 11457 3298 3297 XOR";
"2 1 823 3297 11455 XOR";
"2 1 823 3648 11456 XOR";
"2 1 11456 3297 3701 XOR";
"2 1 3648 3297 11454 XOR";
"2 1 11455 11454 11453 AND";
"2 1 11453 3297 3296 XOR";
"2 1 822 3296 11451 XOR";
"2 1 822 3647 11452 XOR";
"2 1 11452 3296 3700 XOR";
"2 1 3647 3296 11450 XOR";
"2 1 11451 11450 11449 AND";
"2 1 11449 3296 3295 XOR";
"2 1 821 3295 11447 XOR";
"2 1 821 3646 11448 XOR";
"2 1 11448 3295 3699 XOR";
"2 1 3646 3295 11446 XOR";
"2 1 11447 11446 11445 AND";
"2 1 11445 3295 3294 XOR";
"2 1 820 3294 11443 XOR";
"2 1 820 3645 11444 XOR";
"2 1 11444 3294 3698 XOR";
"2 1 3645 3294 11442 XOR";
"2 1 11443 11442 11441 AND";
"2 1 11441 3294 3293 XOR";
"2 1 819 3293 11439 XOR";
"2 1 819 3644 11440 XOR";
"2 1 11440 3293 3697 XOR";
"2 1 3644 3293 11438 XOR";
"2 1 11439 11438 11437 AND";
"2 1 11437 3293 3292 XOR";
"2 1 818 3292 11435 XOR";
"2 1 818 3643 11436 XOR";
"2 1 11436 3292 3696 XOR";
"2 1 3643 3292 11434 XOR";
"2 1 11435 11434 11433 AND";
"2 1 11433 3292 3291 XOR";
"2 1 817 3291 11431 XOR";
"2 1 817 3642 11432 XOR";
"2 1 11432 3291 3695 XOR";
"2 1 3642 3291 11430 XOR";
"2 1 11431 11430 11429 AND";
"2 1 11429 3291 3290 XOR";
"2 1 816 3290 11427 XOR";
"2 1 816 3641 11428 XOR";
"2 1 11428 3290 3694 XOR";
"2 1 3641 3290 11426 XOR";
"2 1 11427 11426 11425 AND";
"2 1 11425 3290 3289 XOR";
"2 1 815 3289 11423 XOR";
"2 1 815 3640 11424 XOR";
"2 1 11424 3289 3693 XOR";
"2 1 3640 3289 11422 XOR";
"2 1 11423 11422 11421 AND";
"2 1 11421 3289 3288 XOR";
"2 1 814 3288 11419 XOR";
"2 1 814 3639 11420 XOR";
"2 1 11420 3288 3692 XOR";
"2 1 3639 3288 11418 XOR";
"2 1 11419 11418 11417 AND";
"2 1 11417 3288 3287 XOR";
"2 1 813 3287 11415 XOR";
"2 1 813 3638 11416 XOR";
"2 1 11416 3287 3691 XOR";
"2 1 3638 3287 11414 XOR";
"2 1 11415 11414 11413 AND";
"2 1 11413 3287 3286 XOR";
"2 1 812 3286 11411 XOR";
"2 1 812 3637 11412 XOR";
"2 1 11412 3286 3690 XOR";
"2 1 3637 3286 11410 XOR";
"2 1 11411 11410 11409 AND";
"2 1 11409 3286 3285 XOR";
"2 1 811 3285 11407 XOR";
"2 1 811 3636 11408 XOR";
"2 1 11408 3285 3689 XOR";
"2 1 3636 3285 11406 XOR";
"2 1 11407 11406 11405 AND";
"2 1 11405 3285 3284 XOR";
"2 1 810 3284 11403 XOR";
"2 1 810 3635 11404 XOR";
"2 1 11404 3284 3688 XOR";
"2 1 863 3688 11203 XOR";
"2 1 3635 3284 11402 XOR";
"2 1 11403 11402 11401 AND";
"2 1 11401 3284 3283 XOR";
"2 1 809 3283 11399 XOR";
"2 1 809 3634 11400 XOR";
"2 1 11400 3283 3687 XOR";
"2 1 3634 3283 11398 XOR";
"2 1 11399 11398 11397 AND";
"2 1 11397 3283 3282 XOR";
"2 1 808 3282 11395 XOR";
"2 1 808 3633 11396 XOR";
"2 1 11396 3282 3686 XOR";
"2 1 3633 3282 11394 XOR";
"2 1 11395 11394 11393 AND";
"2 1 11393 3282 3281 XOR";
"2 1 807 3281 11391 XOR";
"2 1 807 3632 11392 XOR";
"2 1 11392 3281 3685 XOR";
"2 1 806 3631 11388 XOR";
"2 1 3632 3281 11390 XOR";
"2 1 11391 11390 11389 AND";
"2 1 11389 3281 3280 XOR";
"2 1 11388 3280 3684 XOR";
"2 1 806 3280 11387 XOR";
"2 1 805 3630 11384 XOR";
"2 1 3631 3280 11386 XOR";
"2 1 11387 11386 11385 AND";
"2 1 11385 3280 3279 XOR";
"2 1 11384 3279 3683 XOR";
"2 1 805 3279 11383 XOR";
"2 1 804 3629 11380 XOR";
"2 1 3630 3279 11382 XOR";
"2 1 11383 11382 11381 AND";
"2 1 11381 3279 3278 XOR";
"2 1 11380 3278 3682 XOR";
"2 1 804 3278 11379 XOR";
"2 1 803 3628 11376 XOR";
"2 1 3629 3278 11378 XOR";
"2 1 11379 11378 11377 AND";
"2 1 11377 3278 3277 XOR";
"2 1 11376 3277 3681 XOR";
"2 1 856 3681 11175 XOR";
"2 1 803 3277 11375 XOR";
"2 1 802 3627 11372 XOR";
"2 1 3628 3277 11374 XOR";
"2 1 11375 11374 11373 AND";
"2 1 11373 3277 3276 XOR";
"2 1 11372 3276 3680 XOR";
"2 1 802 3276 11371 XOR";
"2 1 801 3626 11368 XOR";
"2 1 3627 3276 11370 XOR";
"2 1 11371 11370 11369 AND";
"2 1 11369 3276 3275 XOR";
"2 1 11368 3275 3679 XOR";
"2 1 801 3275 11367 XOR";
"2 1 800 3625 11364 XOR";
"2 1 3626 3275 11366 XOR";
"2 1 11367 11366 11365 AND";
"2 1 11365 3275 3274 XOR";
"2 1 11364 3274 3678 XOR";
"2 1 800 3274 11363 XOR";
"2 1 799 3624 11360 XOR";
"2 1 3625 3274 11362 XOR";
"2 1 11363 11362 11361 AND";
"2 1 11361 3274 3273 XOR";
"2 1 11360 3273 3677 XOR";
"2 1 799 3273 11359 XOR";
"2 1 798 3623 11356 XOR";
"2 1 3624 3273 11358 XOR";
"2 1 11359 11358 11357 AND";
"2 1 11357 3273 3272 XOR";
"2 1 11356 3272 3676 XOR";
"2 1 798 3272 11355 XOR";
"2 1 797 3622 11352 XOR";
"2 1 3623 3272 11354 XOR";
"2 1 11355 11354 11353 AND";
"2 1 11353 3272 3271 XOR";
"2 1 11352 3271 3675 XOR";
"2 1 797 3271 11351 XOR";
"2 1 796 3621 11348 XOR";
"2 1 3622 3271 11350 XOR";
"2 1 11351 11350 11349 AND";
"2 1 11349 3271 3270 XOR";
"2 1 11348 3270 3674 XOR";
"2 1 796 3270 11347 XOR";
"2 1 795 3620 11344 XOR";
"2 1 3621 3270 11346 XOR";
"2 1 11347 11346 11345 AND";
"2 1 11345 3270 3269 XOR";
"2 1 11344 3269 3673 XOR";
"2 1 795 3269 11343 XOR";
"2 1 794 3619 11340 XOR";
"2 1 3620 3269 11342 XOR";
"2 1 11343 11342 11341 AND";
"2 1 11341 3269 3268 XOR";
"2 1 11340 3268 3672 XOR";
"2 1 847 3672 11139 XOR";
"2 1 794 3268 11339 XOR";
"2 1 793 3618 11336 XOR";
"2 1 3619 3268 11338 XOR";
"2 1 11339 11338 11337 AND";
"2 1 11337 3268 3267 XOR";
"2 1 11336 3267 3671 XOR";
"2 1 793 3267 11335 XOR";
"2 1 792 3617 11332 XOR";
"2 1 3618 3267 11334 XOR";
"2 1 11335 11334 11333 AND";
"2 1 11333 3267 3266 XOR";
"2 1 11332 3266 3670 XOR";
"2 1 792 3266 11331 XOR";
"2 1 791 3616 11328 XOR";
"2 1 3617 3266 11330 XOR";
"2 1 11331 11330 11329 AND";
"2 1 11329 3266 3265 XOR";
"2 1 11328 3265 3669 XOR";
"2 1 791 3265 11327 XOR";
"2 1 790 3615 11324 XOR";
"2 1 3616 3265 11326 XOR";
"2 1 11327 11326 11325 AND";
"2 1 11325 3265 3264 XOR";
"2 1 11324 3264 3668 XOR";
"2 1 790 3264 11323 XOR";
"2 1 789 3614 11320 XOR";
"2 1 3615 3264 11322 XOR";
"2 1 11323 11322 11321 AND";
"2 1 11321 3264 3263 XOR";
"2 1 11320 3263 3667 XOR";
"2 1 789 3263 11319 XOR";
"2 1 788 3613 11316 XOR";
"2 1 3614 3263 11318 XOR";
"2 1 11319 11318 11317 AND";
"2 1 11317 3263 3262 XOR";
"2 1 11316 3262 3666 XOR";
"2 1 788 3262 11315 XOR";
"2 1 787 3612 11312 XOR";
"2 1 3613 3262 11314 XOR";
"2 1 11315 11314 11313 AND";
"2 1 11313 3262 3261 XOR";
"2 1 11312 3261 3665 XOR";
"2 1 840 3665 11111 XOR";
"2 1 787 3261 11311 XOR";
"2 1 786 3611 11308 XOR";
"2 1 3612 3261 11310 XOR";
"2 1 11311 11310 11309 AND";
"2 1 11309 3261 3260 XOR";
"2 1 11308 3260 3664 XOR";
"2 1 786 3260 11307 XOR";
"2 1 785 3610 11304 XOR";
"2 1 3611 3260 11306 XOR";
"2 1 11307 11306 11305 AND";
"2 1 11305 3260 3259 XOR";
"2 1 11304 3259 3663 XOR";
"2 1 785 3259 11303 XOR";
"2 1 784 3609 11300 XOR";
"2 1 3610 3259 11302 XOR";
"2 1 11303 11302 11301 AND";
"2 1 11301 3259 3258 XOR";
"2 1 11300 3258 3662 XOR";
"2 1 784 3258 11299 XOR";
"2 1 783 3608 11296 XOR";
"2 1 3609 3258 11298 XOR";
"2 1 11299 11298 11297 AND";
"2 1 11297 3258 3257 XOR";
"2 1 11296 3257 3661 XOR";
"2 1 783 3257 11295 XOR";
"2 1 782 3607 11292 XOR";
"2 1 3608 3257 11294 XOR";
"2 1 11295 11294 11293 AND";
"2 1 11293 3257 3256 XOR";
"2 1 11292 3256 3660 XOR";
"2 1 782 3256 11291 XOR";
"2 1 781 3606 11288 XOR";
"2 1 3607 3256 11290 XOR";
"2 1 11291 11290 11289 AND";
"2 1 11289 3256 3255 XOR";
"2 1 11288 3255 3659 XOR";
"2 1 781 3255 11287 XOR";
"2 1 780 3605 11284 XOR";
"2 1 3606 3255 11286 XOR";
"2 1 11287 11286 11285 AND";
"2 1 11285 3255 3254 XOR";
"2 1 11284 3254 3658 XOR";
"2 1 833 3658 11083 XOR";
"2 1 780 3254 11283 XOR";
"2 1 779 3604 11280 XOR";
"2 1 3605 3254 11282 XOR";
"2 1 11283 11282 11281 AND";
"2 1 11281 3254 3253 XOR";
"2 1 11280 3253 3657 XOR";
"2 1 779 3253 11279 XOR";
"2 1 778 3603 11276 XOR";
"2 1 3604 3253 11278 XOR";
"2 1 11279 11278 11277 AND";
"2 1 11277 3253 3252 XOR";
"2 1 11276 3252 3656 XOR";
"2 1 778 3252 11275 XOR";
"2 1 777 3602 11272 XOR";
"2 1 3603 3252 11274 XOR";
"2 1 11275 11274 11273 AND";
"2 1 11273 3252 3251 XOR";
"2 1 11272 3251 3655 XOR";
"2 1 777 3251 11271 XOR";
"2 1 776 3601 11268 XOR";
"2 1 3602 3251 11270 XOR";
"2 1 11271 11270 11269 AND";
"2 1 11269 3251 3250 XOR";
"2 1 11268 3250 3654 XOR";
"2 1 879 3704 11267 XOR";
"2 1 11267 3352 3756 XOR";
"2 1 931 3756 13752 XOR";
"2 1 931 3756 3402 AND";
"2 1 3704 3352 11265 XOR";
"2 1 11266 11265 11264 AND";
"2 1 11264 3352 3351 XOR";
"2 1 878 3703 11263 XOR";
"2 1 11263 3351 3755 XOR";
"2 1 3703 3351 11261 XOR";
"2 1 878 3351 11262 XOR";
"2 1 11262 11261 11260 AND";
"2 1 11260 3351 3350 XOR";
"2 1 877 3702 11259 XOR";
"2 1 11259 3350 3754 XOR";
"2 1 3702 3350 11257 XOR";
"2 1 877 3350 11258 XOR";
"2 1 11258 11257 11256 AND";
"2 1 11256 3350 3349 XOR";
"2 1 876 3701 11255 XOR";
"2 1 11255 3349 3753 XOR";
"2 1 3701 3349 11253 XOR";
"2 1 876 3349 11254 XOR";
"2 1 11254 11253 11252 AND";
"2 1 11252 3349 3348 XOR";
"2 1 875 3700 11251 XOR";
"2 1 11251 3348 3752 XOR";
"2 1 3700 3348 11249 XOR";
"2 1 875 3348 11250 XOR";
"2 1 11250 11249 11248 AND";
"2 1 11248 3348 3347 XOR";
"2 1 874 3699 11247 XOR";
"2 1 11247 3347 3751 XOR";
"2 1 3699 3347 11245 XOR";
"2 1 874 3347 11246 XOR";
"2 1 11246 11245 11244 AND";
"2 1 11244 3347 3346 XOR";
"2 1 873 3698 11243 XOR";
"2 1 11243 3346 3750 XOR";
"2 1 925 3750 11046 XOR";
"2 1 3698 3346 11241 XOR";
"2 1 873 3346 11242 XOR";
"2 1 11242 11241 11240 AND";
"2 1 11240 3346 3345 XOR";
"2 1 872 3697 11239 XOR";
"2 1 11239 3345 3749 XOR";
"2 1 3697 3345 11237 XOR";
"2 1 872 3345 11238 XOR";
"2 1 11238 11237 11236 AND";
"2 1 11236 3345 3344 XOR";
"2 1 871 3696 11235 XOR";
"2 1 11235 3344 3748 XOR";
"2 1 3696 3344 11233 XOR";
"2 1 871 3344 11234 XOR";
"2 1 11234 11233 11232 AND";
"2 1 11232 3344 3343 XOR";
"2 1 870 3695 11231 XOR";
"2 1 11231 3343 3747 XOR";
"2 1 3695 3343 11229 XOR";
"2 1 870 3343 11230 XOR";
"2 1 11230 11229 11228 AND";
"2 1 11228 3343 3342 XOR";
"2 1 869 3694 11227 XOR";
"2 1 11227 3342 3746 XOR";
"2 1 3694 3342 11225 XOR";
"2 1 869 3342 11226 XOR";
"2 1 11226 11225 11224 AND";
"2 1 11224 3342 3341 XOR";
"2 1 868 3693 11223 XOR";
"2 1 11223 3341 3745 XOR";
"2 1 867 3692 11219 XOR";
"2 1 868 3341 11222 XOR";
"2 1 3693 3341 11221 XOR";
"2 1 11222 11221 11220 AND";
"2 1 11220 3341 3340 XOR";
"2 1 867 3340 11218 XOR";
"2 1 11219 3340 3744 XOR";
"2 1 866 3691 11215 XOR";
"2 1 3692 3340 11217 XOR";
"2 1 11218 11217 11216 AND";
"2 1 11216 3340 3339 XOR";
"2 1 3691 3339 11213 XOR";
"2 1 11215 3339 3743 XOR";
"2 1 918 3743 11018 XOR";
"2 1 866 3339 11214 XOR";
"2 1 11214 11213 11212 AND";
"2 1 11212 3339 3338 XOR";
"2 1 865 3690 11211 XOR";
"2 1 11211 3338 3742 XOR";
"2 1 3690 3338 11209 XOR";
"2 1 865 3338 11210 XOR";
"2 1 11210 11209 11208 AND";
"2 1 11208 3338 3337 XOR";
"2 1 864 3337 11206 XOR";
"2 1 864 3689 11207 XOR";
"2 1 11207 3337 3741 XOR";
"2 1 3689 3337 11205 XOR";
"2 1 11206 11205 11204 AND";
"2 1 11204 3337 3336 XOR";
"2 1 11203 3336 3740 XOR";
"2 1 3688 3336 11201 XOR";
"2 1 863 3336 11202 XOR";
"2 1 11202 11201 11200 AND";
"2 1 11200 3336 3335 XOR";
"2 1 862 3687 11199 XOR";
"2 1 11199 3335 3739 XOR";
"2 1 3687 3335 11197 XOR";
"2 1 862 3335 11198 XOR";
"2 1 11198 11197 11196 AND";
"2 1 11196 3335 3334 XOR";
"2 1 861 3686 11195 XOR";
"2 1 11195 3334 3738 XOR";
"2 1 860 3685 11191 XOR";
"2 1 861 3334 11194 XOR";
"2 1 3686 3334 11193 XOR";
"2 1 11194 11193 11192 AND";
"2 1 11192 3334 3333 XOR";
"2 1 860 3333 11190 XOR";
"2 1 11191 3333 3737 XOR";
"2 1 859 3684 11187 XOR";
"2 1 3685 3333 11189 XOR";
"2 1 11190 11189 11188 AND";
"2 1 11188 3333 3332 XOR";
"2 1 3684 3332 11185 XOR";
"2 1 11187 3332 3736 XOR";
"2 1 911 3736 10990 XOR";
"2 1 859 3332 11186 XOR";
"2 1 11186 11185 11184 AND";
"2 1 11184 3332 3331 XOR";
"2 1 858 3683 11183 XOR";
"2 1 11183 3331 3735 XOR";
"2 1 3683 3331 11181 XOR";
"2 1 858 3331 11182 XOR";
"2 1 11182 11181 11180 AND";
"2 1 11180 3331 3330 XOR";
"2 1 857 3330 11178 XOR";
"2 1 857 3682 11179 XOR";
"2 1 11179 3330 3734 XOR";
"2 1 3682 3330 11177 XOR";
"2 1 11178 11177 11176 AND";
"2 1 11176 3330 3329 XOR";
"2 1 11175 3329 3733 XOR";
"2 1 3681 3329 11173 XOR";
"2 1 856 3329 11174 XOR";
"2 1 11174 11173 11172 AND";
"2 1 11172 3329 3328 XOR";
"2 1 855 3680 11171 XOR";
"2 1 11171 3328 3732 XOR";
"2 1 3680 3328 11169 XOR";
"2 1 855 3328 11170 XOR";
"2 1 11170 11169 11168 AND";
"2 1 11168 3328 3327 XOR";
"2 1 854 3679 11167 XOR";
"2 1 11167 3327 3731 XOR";
"2 1 853 3678 11163 XOR";
"2 1 854 3327 11166 XOR";
"2 1 3679 3327 11165 XOR";
"2 1 11166 11165 11164 AND";
"2 1 11164 3327 3326 XOR";
"2 1 853 3326 11162 XOR";
"2 1 11163 3326 3730 XOR";
"2 1 852 3677 11159 XOR";
"2 1 3678 3326 11161 XOR";
"2 1 11162 11161 11160 AND";
"2 1 11160 3326 3325 XOR";
"2 1 3677 3325 11157 XOR";
"2 1 11159 3325 3729 XOR";
"2 1 852 3325 11158 XOR";
"2 1 11158 11157 11156 AND";
"2 1 11156 3325 3324 XOR";
"2 1 851 3676 11155 XOR";
"2 1 11155 3324 3728 XOR";
"2 1 3676 3324 11153 XOR";
"2 1 851 3324 11154 XOR";
"2 1 11154 11153 11152 AND";
"2 1 11152 3324 3323 XOR";
"2 1 850 3323 11150 XOR";
"2 1 850 3675 11151 XOR";
"2 1 11151 3323 3727 XOR";
"2 1 849 3674 11147 XOR";
"2 1 3675 3323 11149 XOR";
"2 1 11150 11149 11148 AND";
"2 1 11148 3323 3322 XOR";
"2 1 3674 3322 11145 XOR";
"2 1 11147 3322 3726 XOR";
"2 1 849 3322 11146 XOR";
"2 1 11146 11145 11144 AND";
"2 1 11144 3322 3321 XOR";
"2 1 848 3321 11142 XOR";
"2 1 848 3673 11143 XOR";
"2 1 11143 3321 3725 XOR";
"2 1 3673 3321 11141 XOR";
"2 1 11142 11141 11140 AND";
"2 1 11140 3321 3320 XOR";
"2 1 11139 3320 3724 XOR";
"2 1 3672 3320 11137 XOR";
"2 1 847 3320 11138 XOR";
"2 1 11138 11137 11136 AND";
"2 1 11136 3320 3319 XOR";
"2 1 846 3671 11135 XOR";
"2 1 11135 3319 3723 XOR";
"2 1 3671 3319 11133 XOR";
"2 1 846 3319 11134 XOR";
"2 1 11134 11133 11132 AND";
"2 1 11132 3319 3318 XOR";
"2 1 845 3670 11131 XOR";
"2 1 11131 3318 3722 XOR";
"2 1 844 3669 11127 XOR";
"2 1 845 3318 11130 XOR";
"2 1 3670 3318 11129 XOR";
"2 1 11130 11129 11128 AND";
"2 1 11128 3318 3317 XOR";
"2 1 844 3317 11126 XOR";
"2 1 11127 3317 3721 XOR";
"2 1 843 3668 11123 XOR";
"2 1 3669 3317 11125 XOR";
"2 1 11126 11125 11124 AND";
"2 1 11124 3317 3316 XOR";
"2 1 3668 3316 11121 XOR";
"2 1 11123 3316 3720 XOR";
"2 1 843 3316 11122 XOR";
"2 1 11122 11121 11120 AND";
"2 1 11120 3316 3315 XOR";
"2 1 842 3667 11119 XOR";
"2 1 11119 3315 3719 XOR";
"2 1 3667 3315 11117 XOR";
"2 1 842 3315 11118 XOR";
"2 1 11118 11117 11116 AND";
"2 1 11116 3315 3314 XOR";
"2 1 841 3314 11114 XOR";
"2 1 841 3666 11115 XOR";
"2 1 11115 3314 3718 XOR";
"2 1 3666 3314 11113 XOR";
"2 1 11114 11113 11112 AND";
"2 1 11112 3314 3313 XOR";
"2 1 11111 3313 3717 XOR";
"2 1 3665 3313 11109 XOR";
"2 1 840 3313 11110 XOR";
"2 1 11110 11109 11108 AND";
"2 1 11108 3313 3312 XOR";
"2 1 839 3664 11107 XOR";
"2 1 11107 3312 3716 XOR";
"2 1 3664 3312 11105 XOR";
"2 1 839 3312 11106 XOR";
"2 1 11106 11105 11104 AND";
"2 1 11104 3312 3311 XOR";
"2 1 838 3663 11103 XOR";
"2 1 11103 3311 3715 XOR";
"2 1 837 3662 11099 XOR";
"2 1 838 3311 11102 XOR";
"2 1 3663 3311 11101 XOR";
"2 1 11102 11101 11100 AND";
"2 1 11100 3311 3310 XOR";
"2 1 837 3310 11098 XOR";
"2 1 11099 3310 3714 XOR";
"2 1 836 3661 11095 XOR";
"2 1 3662 3310 11097 XOR";
"2 1 11098 11097 11096 AND";
"2 1 11096 3310 3309 XOR";
"2 1 3661 3309 11093 XOR";
"2 1 11095 3309 3713 XOR";
"2 1 888 3713 10898 XOR";
"2 1 836 3309 11094 XOR";
"2 1 11094 11093 11092 AND";
"2 1 11092 3309 3308 XOR";
"2 1 835 3660 11091 XOR";
"2 1 11091 3308 3712 XOR";
"2 1 887 3712 10894 XOR";
"2 1 3660 3308 11089 XOR";
"2 1 835 3308 11090 XOR";
"2 1 11090 11089 11088 AND";
"2 1 11088 3308 3307 XOR";
"2 1 834 3307 11086 XOR";
"2 1 834 3659 11087 XOR";
"2 1 11087 3307 3711 XOR";
"2 1 886 3711 10890 XOR";
"2 1 3659 3307 11085 XOR";
"2 1 11086 11085 11084 AND";
"2 1 11084 3307 3306 XOR";
"2 1 11083 3306 3710 XOR";
"2 1 885 3710 10886 XOR";
"2 1 3658 3306 11081 XOR";
"2 1 833 3306 11082 XOR";
"2 1 11082 11081 11080 AND";
"2 1 11080 3306 3305 XOR";
"2 1 832 3657 11079 XOR";
"2 1 11079 3305 3709 XOR";
"2 1 884 3709 10882 XOR";
"2 1 3657 3305 11077 XOR";
"2 1 832 3305 11078 XOR";
"2 1 11078 11077 11076 AND";
"2 1 11076 3305 3304 XOR";
"2 1 831 3656 11075 XOR";
"2 1 11075 3304 3708 XOR";
"2 1 883 3708 10878 XOR";
"2 1 830 3655 11071 XOR";
"2 1 831 3304 11074 XOR";
"2 1 3656 3304 11073 XOR";
"2 1 11074 11073 11072 AND";
"2 1 11072 3304 3303 XOR";
"2 1 830 3303 11070 XOR";
"2 1 11071 3303 3707 XOR";
"2 1 882 3707 10874 XOR";
"2 1 829 3654 11067 XOR";
"2 1 3655 3303 11069 XOR";
"2 1 11070 11069 11068 AND";
"2 1 11068 3303 3302 XOR";
"2 1 11067 3302 3706 XOR";
"2 1 881 3706 10870 XOR";
"2 1 930 3755 11066 XOR";
"2 1 11066 3402 3806 XOR";
"2 1 981 3806 13753 XOR";
"2 1 981 3806 3451 AND";
"2 1 980 3451 10868 XOR";
"2 1 929 3754 11062 XOR";
"2 1 930 3402 11065 XOR";
"2 1 3755 3402 11064 XOR";
"2 1 11065 11064 11063 AND";
"2 1 11063 3402 3401 XOR";
"2 1 929 3401 11061 XOR";
"2 1 11062 3401 3805 XOR";
"2 1 3805 3451 10867 XOR";
"2 1 980 3805 10869 XOR";
"2 1 10868 10867 10866 AND";
"2 1 10866 3451 3450 XOR";
"2 1 979 3450 10864 XOR";
"2 1 928 3753 11058 XOR";
"2 1 3754 3401 11060 XOR";
"2 1 11061 11060 11059 AND";
"2 1 11059 3401 3400 XOR";
"2 1 3753 3400 11056 XOR";
"2 1 11058 3400 3804 XOR";
"2 1 3804 3450 10863 XOR";
"2 1 979 3804 10865 XOR";
"2 1 10865 3450 3854 XOR";
"2 1 1029 3854 10676 XOR";
"2 1 10864 10863 10862 AND";
"2 1 10862 3450 3449 XOR";
"2 1 978 3449 10860 XOR";
"2 1 928 3400 11057 XOR";
"2 1 11057 11056 11055 AND";
"2 1 11055 3400 3399 XOR";
"2 1 927 3752 11054 XOR";
"2 1 11054 3399 3803 XOR";
"2 1 978 3803 10861 XOR";
"2 1 10861 3449 3853 XOR";
"2 1 1028 3853 10672 XOR";
"2 1 3803 3449 10859 XOR";
"2 1 10860 10859 10858 AND";
"2 1 10858 3449 3448 XOR";
"2 1 3752 3399 11052 XOR";
"2 1 927 3399 11053 XOR";
"2 1 11053 11052 11051 AND";
"2 1 11051 3399 3398 XOR";
"2 1 926 3398 11049 XOR";
"2 1 926 3751 11050 XOR";
"2 1 11050 3398 3802 XOR";
"2 1 3802 3448 10855 XOR";
"2 1 977 3802 10857 XOR";
"2 1 10857 3448 3852 XOR";
"2 1 1027 3852 10668 XOR";
"2 1 3751 3398 11048 XOR";
"2 1 11049 11048 11047 AND";
"2 1 11047 3398 3397 XOR";
"2 1 11046 3397 3801 XOR";
"2 1 976 3801 10853 XOR";
"2 1 3750 3397 11044 XOR";
"2 1 925 3397 11045 XOR";
"2 1 11045 11044 11043 AND";
"2 1 11043 3397 3396 XOR";
"2 1 924 3749 11042 XOR";
"2 1 11042 3396 3800 XOR";
"2 1 975 3800 10849 XOR";
"2 1 3749 3396 11040 XOR";
"2 1 924 3396 11041 XOR";
"2 1 11041 11040 11039 AND";
"2 1 11039 3396 3395 XOR";
"2 1 923 3748 11038 XOR";
"2 1 11038 3395 3799 XOR";
"2 1 974 3799 10845 XOR";
"2 1 922 3747 11034 XOR";
"2 1 923 3395 11037 XOR";
"2 1 3748 3395 11036 XOR";
"2 1 11037 11036 11035 AND";
"2 1 11035 3395 3394 XOR";
"2 1 922 3394 11033 XOR";
"2 1 11034 3394 3798 XOR";
"2 1 973 3798 10841 XOR";
"2 1 921 3746 11030 XOR";
"2 1 3747 3394 11032 XOR";
"2 1 11033 11032 11031 AND";
"2 1 11031 3394 3393 XOR";
"2 1 3746 3393 11028 XOR";
"2 1 11030 3393 3797 XOR";
"2 1 972 3797 10837 XOR";
"2 1 921 3393 11029 XOR";
"2 1 11029 11028 11027 AND";
"2 1 11027 3393 3392 XOR";
"2 1 920 3745 11026 XOR";
"2 1 11026 3392 3796 XOR";
"2 1 971 3796 10833 XOR";
"2 1 3745 3392 11024 XOR";
"2 1 920 3392 11025 XOR";
"2 1 11025 11024 11023 AND";
"2 1 11023 3392 3391 XOR";
"2 1 919 3391 11021 XOR";
"2 1 919 3744 11022 XOR";
"2 1 11022 3391 3795 XOR";
"2 1 970 3795 10829 XOR";
"2 1 3744 3391 11020 XOR";
"2 1 11021 11020 11019 AND";
"2 1 11019 3391 3390 XOR";
"2 1 11018 3390 3794 XOR";
"2 1 969 3794 10825 XOR";
"2 1 3743 3390 11016 XOR";
"2 1 918 3390 11017 XOR";
"2 1 11017 11016 11015 AND";
"2 1 11015 3390 3389 XOR";
"2 1 917 3742 11014 XOR";
"2 1 11014 3389 3793 XOR";
"2 1 968 3793 10821 XOR";
"2 1 3742 3389 11012 XOR";
"2 1 917 3389 11013 XOR";
"2 1 11013 11012 11011 AND";
"2 1 11011 3389 3388 XOR";
"2 1 916 3741 11010 XOR";
"2 1 11010 3388 3792 XOR";
"2 1 967 3792 10817 XOR";
"2 1 915 3740 11006 XOR";
"2 1 916 3388 11009 XOR";
"2 1 3741 3388 11008 XOR";
"2 1 11009 11008 11007 AND";
"2 1 11007 3388 3387 XOR";
"2 1 915 3387 11005 XOR";
"2 1 11006 3387 3791 XOR";
"2 1 966 3791 10813 XOR";
"2 1 914 3739 11002 XOR";
"2 1 3740 3387 11004 XOR";
"2 1 11005 11004 11003 AND";
"2 1 11003 3387 3386 XOR";
"2 1 3739 3386 11000 XOR";
"2 1 11002 3386 3790 XOR";
"2 1 965 3790 10809 XOR";
"2 1 914 3386 11001 XOR";
"2 1 11001 11000 10999 AND";
"2 1 10999 3386 3385 XOR";
"2 1 913 3738 10998 XOR";
"2 1 10998 3385 3789 XOR";
"2 1 964 3789 10805 XOR";
"2 1 3738 3385 10996 XOR";
"2 1 913 3385 10997 XOR";
"2 1 10997 10996 10995 AND";
"2 1 10995 3385 3384 XOR";
"2 1 912 3384 10993 XOR";
"2 1 912 3737 10994 XOR";
"2 1 10994 3384 3788 XOR";
"2 1 963 3788 10801 XOR";
"2 1 3737 3384 10992 XOR";
"2 1 10993 10992 10991 AND";
"2 1 10991 3384 3383 XOR";
"2 1 10990 3383 3787 XOR";
"2 1 962 3787 10797 XOR";
"2 1 3736 3383 10988 XOR";
"2 1 911 3383 10989 XOR";
"2 1 10989 10988 10987 AND";
"2 1 10987 3383 3382 XOR";
"2 1 910 3735 10986 XOR";
"2 1 10986 3382 3786 XOR";
"2 1 961 3786 10793 XOR";
"2 1 3735 3382 10984 XOR";
"2 1 910 3382 10985 XOR";
"2 1 10985 10984 10983 AND";
"2 1 10983 3382 3381 XOR";
"2 1 909 3734 10982 XOR";
"2 1 10982 3381 3785 XOR";
"2 1 960 3785 10789 XOR";
"2 1 908 3733 10978 XOR";
"2 1 909 3381 10981 XOR";
"2 1 3734 3381 10980 XOR";
"2 1 10981 10980 10979 AND";
"2 1 10979 3381 3380 XOR";
"2 1 908 3380 10977 XOR";
"2 1 10978 3380 3784 XOR";
"2 1 959 3784 10785 XOR";
"2 1 907 3732 10974 XOR";
"2 1 3733 3380 10976 XOR";
"2 1 10977 10976 10975 AND";
"2 1 10975 3380 3379 XOR";
"2 1 3732 3379 10972 XOR";
"2 1 10974 3379 3783 XOR";
"2 1 958 3783 10781 XOR";
"2 1 907 3379 10973 XOR";
"2 1 10973 10972 10971 AND";
"2 1 10971 3379 3378 XOR";
"2 1 906 3731 10970 XOR";
"2 1 10970 3378 3782 XOR";
"2 1 957 3782 10777 XOR";
"2 1 3731 3378 10968 XOR";
"2 1 906 3378 10969 XOR";
"2 1 10969 10968 10967 AND";
"2 1 10967 3378 3377 XOR";
"2 1 3730 3377 10964 XOR";
"2 1 905 3377 10965 XOR";
"2 1 10965 10964 10963 AND";
"2 1 905 3730 10966 XOR";
"2 1 10966 3377 3781 XOR";
"2 1 956 3781 10773 XOR";
"2 1 10963 3377 3376 XOR";
"2 1 904 3376 10961 XOR";
"2 1 904 3729 10962 XOR";
"2 1 10962 3376 3780 XOR";
"2 1 955 3780 10769 XOR";
"2 1 3729 3376 10960 XOR";
"2 1 10961 10960 10959 AND";
"2 1 10959 3376 3375 XOR";
"2 1 903 3375 10957 XOR";
"2 1 903 3728 10958 XOR";
"2 1 10958 3375 3779 XOR";
"2 1 954 3779 10765 XOR";
"2 1 3728 3375 10956 XOR";
"2 1 10957 10956 10955 AND";
"2 1 10955 3375 3374 XOR";
"2 1 902 3374 10953 XOR";
"2 1 902 3727 10954 XOR";
"2 1 10954 3374 3778 XOR";
"2 1 953 3778 10761 XOR";
"2 1 3727 3374 10952 XOR";
"2 1 10953 10952 10951 AND";
"2 1 10951 3374 3373 XOR";
"2 1 901 3373 10949 XOR";
"2 1 901 3726 10950 XOR";
"2 1 10950 3373 3777 XOR";
"2 1 952 3777 10757 XOR";
"2 1 3726 3373 10948 XOR";
"2 1 10949 10948 10947 AND";
"2 1 10947 3373 3372 XOR";
"2 1 900 3372 10945 XOR";
"2 1 900 3725 10946 XOR";
"2 1 10946 3372 3776 XOR";
"2 1 951 3776 10753 XOR";
"2 1 3725 3372 10944 XOR";
"2 1 10945 10944 10943 AND";
"2 1 10943 3372 3371 XOR";
"2 1 899 3371 10941 XOR";
"2 1 899 3724 10942 XOR";
"2 1 10942 3371 3775 XOR";
"2 1 950 3775 10749 XOR";
"2 1 3724 3371 10940 XOR";
"2 1 10941 10940 10939 AND";
"2 1 10939 3371 3370 XOR";
"2 1 898 3370 10937 XOR";
"2 1 898 3723 10938 XOR";
"2 1 10938 3370 3774 XOR";
"2 1 949 3774 10745 XOR";
"2 1 3723 3370 10936 XOR";
"2 1 10937 10936 10935 AND";
"2 1 10935 3370 3369 XOR";
"2 1 897 3369 10933 XOR";
"2 1 897 3722 10934 XOR";
"2 1 10934 3369 3773 XOR";
"2 1 948 3773 10741 XOR";
"2 1 3722 3369 10932 XOR";
"2 1 10933 10932 10931 AND";
"2 1 10931 3369 3368 XOR";
"2 1 896 3368 10929 XOR";
"2 1 896 3721 10930 XOR";
"2 1 10930 3368 3772 XOR";
"2 1 947 3772 10737 XOR";
"2 1 3721 3368 10928 XOR";
"2 1 10929 10928 10927 AND";
"2 1 10927 3368 3367 XOR";
"2 1 895 3367 10925 XOR";
"2 1 895 3720 10926 XOR";
"2 1 10926 3367 3771 XOR";
"2 1 946 3771 10733 XOR";
"2 1 3720 3367 10924 XOR";
"2 1 10925 10924 10923 AND";
"2 1 10923 3367 3366 XOR";
"2 1 894 3366 10921 XOR";
"2 1 894 3719 10922 XOR";
"2 1 10922 3366 3770 XOR";
"2 1 945 3770 10729 XOR";
"2 1 3719 3366 10920 XOR";
"2 1 10921 10920 10919 AND";
"2 1 10919 3366 3365 XOR";
"2 1 893 3365 10917 XOR";
"2 1 893 3718 10918 XOR";
"2 1 10918 3365 3769 XOR";
"2 1 944 3769 10725 XOR";
"2 1 3718 3365 10916 XOR";
"2 1 10917 10916 10915 AND";
"2 1 10915 3365 3364 XOR";
"2 1 892 3364 10913 XOR";
"2 1 892 3717 10914 XOR";
"2 1 10914 3364 3768 XOR";
"2 1 943 3768 10721 XOR";
"2 1 3717 3364 10912 XOR";
"2 1 10913 10912 10911 AND";
"2 1 10911 3364 3363 XOR";
"2 1 891 3363 10909 XOR";
"2 1 891 3716 10910 XOR";
"2 1 10910 3363 3767 XOR";
"2 1 942 3767 10717 XOR";
"2 1 3716 3363 10908 XOR";
"2 1 10909 10908 10907 AND";
"2 1 10907 3363 3362 XOR";
"2 1 890 3362 10905 XOR";
"2 1 890 3715 10906 XOR";
"2 1 10906 3362 3766 XOR";
"2 1 941 3766 10713 XOR";
"2 1 3715 3362 10904 XOR";
"2 1 10905 10904 10903 AND";
"2 1 10903 3362 3361 XOR";
"2 1 889 3361 10901 XOR";
"2 1 889 3714 10902 XOR";
"2 1 10902 3361 3765 XOR";
"2 1 940 3765 10709 XOR";
"2 1 3714 3361 10900 XOR";
"2 1 10901 10900 10899 AND";
"2 1 10899 3361 3360 XOR";
"2 1 888 3360 10897 XOR";
"2 1 3713 3360 10896 XOR";
"2 1 10897 10896 10895 AND";
"2 1 10898 3360 3764 XOR";
"2 1 939 3764 10705 XOR";
"2 1 10895 3360 3359 XOR";
"2 1 3712 3359 10892 XOR";
"2 1 10894 3359 3763 XOR";
"2 1 938 3763 10701 XOR";
"2 1 887 3359 10893 XOR";
"2 1 10893 10892 10891 AND";
"2 1 10891 3359 3358 XOR";
"2 1 10890 3358 3762 XOR";
"2 1 937 3762 10697 XOR";
"2 1 3711 3358 10888 XOR";
"2 1 886 3358 10889 XOR";
"2 1 10889 10888 10887 AND";
"2 1 10887 3358 3357 XOR";
"2 1 10886 3357 3761 XOR";
"2 1 3710 3357 10884 XOR";
"2 1 936 3761 10693 XOR";
"2 1 885 3357 10885 XOR";
"2 1 10885 10884 10883 AND";
"2 1 10883 3357 3356 XOR";
"2 1 884 3356 10881 XOR";
"2 1 3709 3356 10880 XOR";
"2 1 10881 10880 10879 AND";
"2 1 10879 3356 3355 XOR";
"2 1 883 3355 10877 XOR";
"2 1 10878 3355 3759 XOR";
"2 1 934 3759 10685 XOR";
"2 1 3708 3355 10876 XOR";
"2 1 10877 10876 10875 AND";
"2 1 10875 3355 3354 XOR";
"2 1 3707 3354 10872 XOR";
"2 1 10874 3354 3758 XOR";
"2 1 933 3758 10681 XOR";
"2 1 10882 3356 3760 XOR";
"2 1 935 3760 10689 XOR";
"2 1 882 3354 10873 XOR";
"2 1 10873 10872 10871 AND";
"2 1 10871 3354 3353 XOR";
"2 1 10870 3353 3757 XOR";
"2 1 932 3757 10677 XOR";
"2 1 10869 3451 3855 XOR";
"2 1 1030 3855 13754 XOR";
"2 1 1030 3855 3499 AND";
"2 1 10676 3499 3903 XOR";
"2 1 1078 3903 13755 XOR";
"2 1 1078 3903 3546 AND";
"2 1 1029 3499 10675 XOR";
"2 1 3854 3499 10674 XOR";
"2 1 10675 10674 10673 AND";
"2 1 10673 3499 3498 XOR";
"2 1 10672 3498 3902 XOR";
"2 1 1028 3498 10671 XOR";
"2 1 3853 3498 10670 XOR";
"2 1 10671 10670 10669 AND";
"2 1 10669 3498 3497 XOR";
"2 1 1027 3497 10667 XOR";
"2 1 10668 3497 3901 XOR";
"2 1 3852 3497 10666 XOR";
"2 1 10667 10666 10665 AND";
"2 1 10665 3497 3496 XOR";
"2 1 1026 3496 10663 XOR";
"2 1 1077 3902 10487 XOR";
"2 1 10487 3546 3950 XOR";
"2 1 1125 3950 13756 XOR";
"2 1 1125 3950 3996 AND";
"2 1 1077 3546 10486 XOR";
"2 1 3902 3546 10485 XOR";
"2 1 10486 10485 10484 AND";
"2 1 10484 3546 3545 XOR";
"2 1 1076 3901 10483 XOR";
"2 1 10483 3545 3949 XOR";
"2 1 1076 3545 10482 XOR";
"2 1 3901 3545 10481 XOR";
"2 1 10482 10481 10480 AND";
"2 1 10480 3545 3544 XOR";
"2 1 1075 3544 10478 XOR";
"2 1 1124 3949 10302 XOR";
"2 1 3949 3996 10300 XOR";
"2 1 10302 3996 4336 XOR";
"2 1 1171 4336 13757 XOR";
"2 1 1171 4336 4041 AND";
"2 1 1124 3996 10301 XOR";
"2 1 10301 10300 10299 AND";
"2 1 10299 3996 3995 XOR";
"2 1 1123 3995 10297 XOR";
"2 1 1170 4041 10120 XOR";
"2 1 977 3448 10856 XOR";
"2 1 10856 10855 10854 AND";
"2 1 10854 3448 3447 XOR";
"2 1 976 3447 10852 XOR";
"2 1 3801 3447 10851 XOR";
"2 1 10852 10851 10850 AND";
"2 1 10853 3447 3851 XOR";
"2 1 3851 3496 10662 XOR";
"2 1 1026 3851 10664 XOR";
"2 1 10664 3496 3900 XOR";
"2 1 10663 10662 10661 AND";
"2 1 10661 3496 3495 XOR";
"2 1 1025 3495 10659 XOR";
"2 1 1075 3900 10479 XOR";
"2 1 10479 3544 3948 XOR";
"2 1 3900 3544 10477 XOR";
"2 1 10478 10477 10476 AND";
"2 1 10476 3544 3543 XOR";
"2 1 1074 3543 10474 XOR";
"2 1 1123 3948 10298 XOR";
"2 1 3948 3995 10296 XOR";
"2 1 10298 3995 4335 XOR";
"2 1 10297 10296 10295 AND";
"2 1 10295 3995 3994 XOR";
"2 1 1122 3994 10293 XOR";
"2 1 1170 4335 10121 XOR";
"2 1 10121 4041 4381 XOR";
"2 1 1216 4381 13758 XOR";
"2 1 1216 4381 4085 AND";
"2 1 4335 4041 10119 XOR";
"2 1 10120 10119 10118 AND";
"2 1 10118 4041 4040 XOR";
"2 1 1169 4040 10116 XOR";
"2 1 1215 4085 9943 XOR";
"2 1 10850 3447 3446 XOR";
"2 1 10849 3446 3850 XOR";
"2 1 3850 3495 10658 XOR";
"2 1 1025 3850 10660 XOR";
"2 1 10660 3495 3899 XOR";
"2 1 10659 10658 10657 AND";
"2 1 10657 3495 3494 XOR";
"2 1 1024 3494 10655 XOR";
"2 1 1074 3899 10475 XOR";
"2 1 10475 3543 3947 XOR";
"2 1 3899 3543 10473 XOR";
"2 1 10474 10473 10472 AND";
"2 1 10472 3543 3542 XOR";
"2 1 1073 3542 10470 XOR";
"2 1 975 3446 10848 XOR";
"2 1 3800 3446 10847 XOR";
"2 1 10848 10847 10846 AND";
"2 1 10846 3446 3445 XOR";
"2 1 10845 3445 3849 XOR";
"2 1 3849 3494 10654 XOR";
"2 1 1024 3849 10656 XOR";
"2 1 10656 3494 3898 XOR";
"2 1 10655 10654 10653 AND";
"2 1 10653 3494 3493 XOR";
"2 1 1023 3493 10651 XOR";
"2 1 1073 3898 10471 XOR";
"2 1 10471 3542 3946 XOR";
"2 1 3898 3542 10469 XOR";
"2 1 10470 10469 10468 AND";
"2 1 10468 3542 3541 XOR";
"2 1 1072 3541 10466 XOR";
"2 1 1122 3947 10294 XOR";
"2 1 3947 3994 10292 XOR";
"2 1 10294 3994 4334 XOR";
"2 1 10293 10292 10291 AND";
"2 1 10291 3994 3993 XOR";
"2 1 1121 3946 10290 XOR";
"2 1 3946 3993 10288 XOR";
"2 1 10290 3993 4333 XOR";
"2 1 1121 3993 10289 XOR";
"2 1 10289 10288 10287 AND";
"2 1 10287 3993 3992 XOR";
"2 1 1120 3992 10285 XOR";
"2 1 974 3445 10844 XOR";
"2 1 3799 3445 10843 XOR";
"2 1 10844 10843 10842 AND";
"2 1 10842 3445 3444 XOR";
"2 1 3798 3444 10839 XOR";
"2 1 10841 3444 3848 XOR";
"2 1 3848 3493 10650 XOR";
"2 1 1023 3848 10652 XOR";
"2 1 10652 3493 3897 XOR";
"2 1 10651 10650 10649 AND";
"2 1 10649 3493 3492 XOR";
"2 1 1022 3492 10647 XOR";
"2 1 1072 3897 10467 XOR";
"2 1 10467 3541 3945 XOR";
"2 1 3897 3541 10465 XOR";
"2 1 10466 10465 10464 AND";
"2 1 10464 3541 3540 XOR";
"2 1 1071 3540 10462 XOR";
"2 1 1120 3945 10286 XOR";
"2 1 3945 3992 10284 XOR";
"2 1 10286 3992 4332 XOR";
"2 1 10285 10284 10283 AND";
"2 1 10283 3992 3991 XOR";
"2 1 1119 3991 10281 XOR";
"2 1 1169 4334 10117 XOR";
"2 1 10117 4040 4380 XOR";
"2 1 4334 4040 10115 XOR";
"2 1 10116 10115 10114 AND";
"2 1 10114 4040 4039 XOR";
"2 1 1168 4333 10113 XOR";
"2 1 10113 4039 4379 XOR";
"2 1 4333 4039 10111 XOR";
"2 1 1168 4039 10112 XOR";
"2 1 10112 10111 10110 AND";
"2 1 10110 4039 4038 XOR";
"2 1 1167 4332 10109 XOR";
"2 1 10109 4038 4378 XOR";
"2 1 4332 4038 10107 XOR";
"2 1 1167 4038 10108 XOR";
"2 1 10108 10107 10106 AND";
"2 1 10106 4038 4037 XOR";
"2 1 1166 4037 10104 XOR";
"2 1 973 3444 10840 XOR";
"2 1 10840 10839 10838 AND";
"2 1 10838 3444 3443 XOR";
"2 1 10837 3443 3847 XOR";
"2 1 3847 3492 10646 XOR";
"2 1 1022 3847 10648 XOR";
"2 1 10648 3492 3896 XOR";
"2 1 10647 10646 10645 AND";
"2 1 10645 3492 3491 XOR";
"2 1 1021 3491 10643 XOR";
"2 1 3896 3540 10461 XOR";
"2 1 10462 10461 10460 AND";
"2 1 1071 3896 10463 XOR";
"2 1 10463 3540 3944 XOR";
"2 1 10460 3540 3539 XOR";
"2 1 1070 3539 10458 XOR";
"2 1 1119 3944 10282 XOR";
"2 1 3944 3991 10280 XOR";
"2 1 10282 3991 4331 XOR";
"2 1 10281 10280 10279 AND";
"2 1 10279 3991 3990 XOR";
"2 1 1118 3990 10277 XOR";
"2 1 1166 4331 10105 XOR";
"2 1 10105 4037 4377 XOR";
"2 1 4331 4037 10103 XOR";
"2 1 10104 10103 10102 AND";
"2 1 10102 4037 4036 XOR";
"2 1 1165 4036 10100 XOR";
"2 1 972 3443 10836 XOR";
"2 1 1215 4380 9944 XOR";
"2 1 9944 4085 4425 XOR";
"2 1 1260 4425 13759 XOR";
"2 1 1260 4425 4128 AND";
"2 1 1259 4128 9770 XOR";
"2 1 1214 4379 9940 XOR";
"2 1 4380 4085 9942 XOR";
"2 1 9943 9942 9941 AND";
"2 1 9941 4085 4084 XOR";
"2 1 9940 4084 4424 XOR";
"2 1 1214 4084 9939 XOR";
"2 1 1213 4378 9936 XOR";
"2 1 4379 4084 9938 XOR";
"2 1 9939 9938 9937 AND";
"2 1 9937 4084 4083 XOR";
"2 1 1213 4083 9935 XOR";
"2 1 9936 4083 4423 XOR";
"2 1 4378 4083 9934 XOR";
"2 1 9935 9934 9933 AND";
"2 1 9933 4083 4082 XOR";
"2 1 1212 4377 9932 XOR";
"2 1 9932 4082 4422 XOR";
"2 1 1212 4082 9931 XOR";
"2 1 4377 4082 9930 XOR";
"2 1 9931 9930 9929 AND";
"2 1 9929 4082 4081 XOR";
"2 1 1211 4081 9927 XOR";
"2 1 3797 3443 10835 XOR";
"2 1 10836 10835 10834 AND";
"2 1 10834 3443 3442 XOR";
"2 1 3796 3442 10831 XOR";
"2 1 971 3442 10832 XOR";
"2 1 10832 10831 10830 AND";
"2 1 1259 4424 9771 XOR";
"2 1 9771 4128 4468 XOR";
"2 1 1303 4468 13760 XOR";
"2 1 1303 4468 4170 AND";
"2 1 1258 4423 9767 XOR";
"2 1 4424 4128 9769 XOR";
"2 1 9770 9769 9768 AND";
"2 1 9768 4128 4127 XOR";
"2 1 9767 4127 4467 XOR";
"2 1 4467 4170 9600 XOR";
"2 1 1258 4127 9766 XOR";
"2 1 4423 4127 9765 XOR";
"2 1 9766 9765 9764 AND";
"2 1 9764 4127 4126 XOR";
"2 1 1257 4422 9763 XOR";
"2 1 9763 4126 4466 XOR";
"2 1 1301 4466 9598 XOR";
"2 1 4422 4126 9761 XOR";
"2 1 1257 4126 9762 XOR";
"2 1 9762 9761 9760 AND";
"2 1 9760 4126 4125 XOR";
"2 1 1256 4125 9758 XOR";
"2 1 1302 4170 9601 XOR";
"2 1 9601 9600 9599 AND";
"2 1 1302 4467 9602 XOR";
"2 1 9602 4170 4510 XOR";
"2 1 1345 4510 13761 XOR";
"2 1 1345 4510 4211 AND";
"2 1 1344 4211 9436 XOR";
"2 1 9599 4170 4169 XOR";
"2 1 1301 4169 9597 XOR";
"2 1 9598 4169 4509 XOR";
"2 1 4509 4211 9435 XOR";
"2 1 9436 9435 9434 AND";
"2 1 9434 4211 4210 XOR";
"2 1 1344 4509 9437 XOR";
"2 1 9437 4211 4551 XOR";
"2 1 1386 4551 13762 XOR";
"2 1 1386 4551 4251 AND";
"2 1 1343 4210 9432 XOR";
"2 1 1385 4251 9275 XOR";
"2 1 4466 4169 9596 XOR";
"2 1 9597 9596 9595 AND";
"2 1 9595 4169 4168 XOR";
"2 1 1300 4168 9593 XOR";
"2 1 10830 3442 3441 XOR";
"2 1 10829 3441 3845 XOR";
"2 1 3795 3441 10827 XOR";
"2 1 970 3441 10828 XOR";
"2 1 10828 10827 10826 AND";
"2 1 10826 3441 3440 XOR";
"2 1 10825 3440 3844 XOR";
"2 1 3794 3440 10823 XOR";
"2 1 969 3440 10824 XOR";
"2 1 10824 10823 10822 AND";
"2 1 10822 3440 3439 XOR";
"2 1 10821 3439 3843 XOR";
"2 1 968 3439 10820 XOR";
"2 1 3793 3439 10819 XOR";
"2 1 10820 10819 10818 AND";
"2 1 10818 3439 3438 XOR";
"2 1 10817 3438 3842 XOR";
"2 1 967 3438 10816 XOR";
"2 1 3792 3438 10815 XOR";
"2 1 10816 10815 10814 AND";
"2 1 10814 3438 3437 XOR";
"2 1 10813 3437 3841 XOR";
"2 1 966 3437 10812 XOR";
"2 1 3791 3437 10811 XOR";
"2 1 10812 10811 10810 AND";
"2 1 10810 3437 3436 XOR";
"2 1 10809 3436 3840 XOR";
"2 1 965 3436 10808 XOR";
"2 1 3790 3436 10807 XOR";
"2 1 10808 10807 10806 AND";
"2 1 10806 3436 3435 XOR";
"2 1 10805 3435 3839 XOR";
"2 1 964 3435 10804 XOR";
"2 1 3789 3435 10803 XOR";
"2 1 10804 10803 10802 AND";
"2 1 10802 3435 3434 XOR";
"2 1 963 3434 10800 XOR";
"2 1 10801 3434 3838 XOR";
"2 1 3788 3434 10799 XOR";
"2 1 10800 10799 10798 AND";
"2 1 10798 3434 3433 XOR";
"2 1 962 3433 10796 XOR";
"2 1 10797 3433 3837 XOR";
"2 1 3787 3433 10795 XOR";
"2 1 10796 10795 10794 AND";
"2 1 10794 3433 3432 XOR";
"2 1 10793 3432 3836 XOR";
"2 1 961 3432 10792 XOR";
"2 1 3786 3432 10791 XOR";
"2 1 10792 10791 10790 AND";
"2 1 10790 3432 3431 XOR";
"2 1 10789 3431 3835 XOR";
"2 1 3785 3431 10787 XOR";
"2 1 960 3431 10788 XOR";
"2 1 10788 10787 10786 AND";
"2 1 10786 3431 3430 XOR";
"2 1 10785 3430 3834 XOR";
"2 1 959 3430 10784 XOR";
"2 1 3784 3430 10783 XOR";
"2 1 10784 10783 10782 AND";
"2 1 10782 3430 3429 XOR";
"2 1 958 3429 10780 XOR";
"2 1 10781 3429 3833 XOR";
"2 1 3783 3429 10779 XOR";
"2 1 10780 10779 10778 AND";
"2 1 10778 3429 3428 XOR";
"2 1 957 3428 10776 XOR";
"2 1 10777 3428 3832 XOR";
"2 1 3782 3428 10775 XOR";
"2 1 10776 10775 10774 AND";
"2 1 10774 3428 3427 XOR";
"2 1 10773 3427 3831 XOR";
"2 1 956 3427 10772 XOR";
"2 1 3781 3427 10771 XOR";
"2 1 10772 10771 10770 AND";
"2 1 10770 3427 3426 XOR";
"2 1 10769 3426 3830 XOR";
"2 1 3780 3426 10767 XOR";
"2 1 955 3426 10768 XOR";
"2 1 10768 10767 10766 AND";
"2 1 10766 3426 3425 XOR";
"2 1 10765 3425 3829 XOR";
"2 1 3779 3425 10763 XOR";
"2 1 954 3425 10764 XOR";
"2 1 10764 10763 10762 AND";
"2 1 10762 3425 3424 XOR";
"2 1 10761 3424 3828 XOR";
"2 1 953 3424 10760 XOR";
"2 1 3778 3424 10759 XOR";
"2 1 10760 10759 10758 AND";
"2 1 10758 3424 3423 XOR";
"2 1 10757 3423 3827 XOR";
"2 1 952 3423 10756 XOR";
"2 1 3777 3423 10755 XOR";
"2 1 10756 10755 10754 AND";
"2 1 10754 3423 3422 XOR";
"2 1 10753 3422 3826 XOR";
"2 1 951 3422 10752 XOR";
"2 1 3776 3422 10751 XOR";
"2 1 10752 10751 10750 AND";
"2 1 10750 3422 3421 XOR";
"2 1 10749 3421 3825 XOR";
"2 1 3775 3421 10747 XOR";
"2 1 950 3421 10748 XOR";
"2 1 10748 10747 10746 AND";
"2 1 10746 3421 3420 XOR";
"2 1 10745 3420 3824 XOR";
"2 1 3774 3420 10743 XOR";
"2 1 949 3420 10744 XOR";
"2 1 10744 10743 10742 AND";
"2 1 10742 3420 3419 XOR";
"2 1 10741 3419 3823 XOR";
"2 1 948 3419 10740 XOR";
"2 1 3773 3419 10739 XOR";
"2 1 10740 10739 10738 AND";
"2 1 10738 3419 3418 XOR";
"2 1 10737 3418 3822 XOR";
"2 1 947 3418 10736 XOR";
"2 1 3772 3418 10735 XOR";
"2 1 10736 10735 10734 AND";
"2 1 10734 3418 3417 XOR";
"2 1 10733 3417 3821 XOR";
"2 1 946 3417 10732 XOR";
"2 1 3771 3417 10731 XOR";
"2 1 10732 10731 10730 AND";
"2 1 10730 3417 3416 XOR";
"2 1 10729 3416 3820 XOR";
"2 1 3770 3416 10727 XOR";
"2 1 945 3416 10728 XOR";
"2 1 10728 10727 10726 AND";
"2 1 10726 3416 3415 XOR";
"2 1 10725 3415 3819 XOR";
"2 1 3769 3415 10723 XOR";
"2 1 944 3415 10724 XOR";
"2 1 10724 10723 10722 AND";
"2 1 10722 3415 3414 XOR";
"2 1 10721 3414 3818 XOR";
"2 1 943 3414 10720 XOR";
"2 1 3768 3414 10719 XOR";
"2 1 10720 10719 10718 AND";
"2 1 10718 3414 3413 XOR";
"2 1 10717 3413 3817 XOR";
"2 1 942 3413 10716 XOR";
"2 1 3767 3413 10715 XOR";
"2 1 10716 10715 10714 AND";
"2 1 10714 3413 3412 XOR";
"2 1 10713 3412 3816 XOR";
"2 1 941 3412 10712 XOR";
"2 1 3766 3412 10711 XOR";
"2 1 10712 10711 10710 AND";
"2 1 10710 3412 3411 XOR";
"2 1 10709 3411 3815 XOR";
"2 1 940 3411 10708 XOR";
"2 1 3765 3411 10707 XOR";
"2 1 10708 10707 10706 AND";
"2 1 10706 3411 3410 XOR";
"2 1 10705 3410 3814 XOR";
"2 1 939 3410 10704 XOR";
"2 1 3764 3410 10703 XOR";
"2 1 10704 10703 10702 AND";
"2 1 10702 3410 3409 XOR";
"2 1 938 3409 10700 XOR";
"2 1 10701 3409 3813 XOR";
"2 1 3763 3409 10699 XOR";
"2 1 10700 10699 10698 AND";
"2 1 10698 3409 3408 XOR";
"2 1 937 3408 10696 XOR";
"2 1 10697 3408 3812 XOR";
"2 1 3762 3408 10695 XOR";
"2 1 10696 10695 10694 AND";
"2 1 10694 3408 3407 XOR";
"2 1 10693 3407 3811 XOR";
"2 1 936 3407 10692 XOR";
"2 1 3761 3407 10691 XOR";
"2 1 10692 10691 10690 AND";
"2 1 10690 3407 3406 XOR";
"2 1 10689 3406 3810 XOR";
"2 1 3760 3406 10687 XOR";
"2 1 935 3406 10688 XOR";
"2 1 10688 10687 10686 AND";
"2 1 10686 3406 3405 XOR";
"2 1 10685 3405 3809 XOR";
"2 1 934 3405 10684 XOR";
"2 1 3759 3405 10683 XOR";
"2 1 10684 10683 10682 AND";
"2 1 10682 3405 3404 XOR";
"2 1 933 3404 10680 XOR";
"2 1 10681 3404 3808 XOR";
"2 1 3758 3404 10679 XOR";
"2 1 10680 10679 10678 AND";
"2 1 10678 3404 3403 XOR";
"2 1 10677 3403 3807 XOR";
"2 1 1020 3845 10640 XOR";
"2 1 1019 3844 10636 XOR";
"2 1 1018 3843 10632 XOR";
"2 1 1017 3842 10628 XOR";
"2 1 1016 3841 10624 XOR";
"2 1 1015 3840 10620 XOR";
"2 1 1014 3839 10616 XOR";
"2 1 1013 3838 10612 XOR";
"2 1 1012 3837 10608 XOR";
"2 1 1011 3836 10604 XOR";
"2 1 1010 3835 10600 XOR";
"2 1 1009 3834 10596 XOR";
"2 1 1008 3833 10592 XOR";
"2 1 1007 3832 10588 XOR";
"2 1 1006 3831 10584 XOR";
"2 1 1005 3830 10580 XOR";
"2 1 1004 3829 10576 XOR";
"2 1 1003 3828 10572 XOR";
"2 1 1002 3827 10568 XOR";
"2 1 1001 3826 10564 XOR";
"2 1 1000 3825 10560 XOR";
"2 1 999 3824 10556 XOR";
"2 1 998 3823 10552 XOR";
"2 1 997 3822 10548 XOR";
"2 1 996 3821 10544 XOR";
"2 1 995 3820 10540 XOR";
"2 1 994 3819 10536 XOR";
"2 1 993 3818 10532 XOR";
"2 1 992 3817 10528 XOR";
"2 1 991 3816 10524 XOR";
"2 1 990 3815 10520 XOR";
"2 1 989 3814 10516 XOR";
"2 1 988 3813 10512 XOR";
"2 1 987 3812 10508 XOR";
"2 1 986 3811 10504 XOR";
"2 1 985 3810 10500 XOR";
"2 1 984 3809 10496 XOR";
"2 1 983 3808 10492 XOR";
"2 1 982 3807 10488 XOR";
"2 1 10833 3442 3846 XOR";
"2 1 3846 3491 10642 XOR";
"2 1 1021 3846 10644 XOR";
"2 1 10644 3491 3895 XOR";
"2 1 10643 10642 10641 AND";
"2 1 10641 3491 3490 XOR";
"2 1 3845 3490 10638 XOR";
"2 1 10640 3490 3894 XOR";
"2 1 1020 3490 10639 XOR";
"2 1 10639 10638 10637 AND";
"2 1 10637 3490 3489 XOR";
"2 1 3844 3489 10634 XOR";
"2 1 10636 3489 3893 XOR";
"2 1 1019 3489 10635 XOR";
"2 1 10635 10634 10633 AND";
"2 1 10633 3489 3488 XOR";
"2 1 3843 3488 10630 XOR";
"2 1 10632 3488 3892 XOR";
"2 1 1018 3488 10631 XOR";
"2 1 10631 10630 10629 AND";
"2 1 10629 3488 3487 XOR";
"2 1 3842 3487 10626 XOR";
"2 1 10628 3487 3891 XOR";
"2 1 1017 3487 10627 XOR";
"2 1 10627 10626 10625 AND";
"2 1 10625 3487 3486 XOR";
"2 1 3841 3486 10622 XOR";
"2 1 10624 3486 3890 XOR";
"2 1 1016 3486 10623 XOR";
"2 1 10623 10622 10621 AND";
"2 1 10621 3486 3485 XOR";
"2 1 3840 3485 10618 XOR";
"2 1 10620 3485 3889 XOR";
"2 1 1015 3485 10619 XOR";
"2 1 10619 10618 10617 AND";
"2 1 10617 3485 3484 XOR";
"2 1 3839 3484 10614 XOR";
"2 1 10616 3484 3888 XOR";
"2 1 1014 3484 10615 XOR";
"2 1 10615 10614 10613 AND";
"2 1 10613 3484 3483 XOR";
"2 1 3838 3483 10610 XOR";
"2 1 10612 3483 3887 XOR";
"2 1 1013 3483 10611 XOR";
"2 1 10611 10610 10609 AND";
"2 1 10609 3483 3482 XOR";
"2 1 3837 3482 10606 XOR";
"2 1 10608 3482 3886 XOR";
"2 1 1012 3482 10607 XOR";
"2 1 10607 10606 10605 AND";
"2 1 10605 3482 3481 XOR";
"2 1 3836 3481 10602 XOR";
"2 1 10604 3481 3885 XOR";
"2 1 1011 3481 10603 XOR";
"2 1 10603 10602 10601 AND";
"2 1 10601 3481 3480 XOR";
"2 1 3835 3480 10598 XOR";
"2 1 10600 3480 3884 XOR";
"2 1 1059 3884 10415 XOR";
"2 1 1010 3480 10599 XOR";
"2 1 10599 10598 10597 AND";
"2 1 10597 3480 3479 XOR";
"2 1 3834 3479 10594 XOR";
"2 1 10596 3479 3883 XOR";
"2 1 1009 3479 10595 XOR";
"2 1 10595 10594 10593 AND";
"2 1 10593 3479 3478 XOR";
"2 1 3833 3478 10590 XOR";
"2 1 10592 3478 3882 XOR";
"2 1 1008 3478 10591 XOR";
"2 1 10591 10590 10589 AND";
"2 1 10589 3478 3477 XOR";
"2 1 3832 3477 10586 XOR";
"2 1 10588 3477 3881 XOR";
"2 1 1007 3477 10587 XOR";
"2 1 10587 10586 10585 AND";
"2 1 10585 3477 3476 XOR";
"2 1 3831 3476 10582 XOR";
"2 1 10584 3476 3880 XOR";
"2 1 1006 3476 10583 XOR";
"2 1 10583 10582 10581 AND";
"2 1 10581 3476 3475 XOR";
"2 1 3830 3475 10578 XOR";
"2 1 10580 3475 3879 XOR";
"2 1 1005 3475 10579 XOR";
"2 1 10579 10578 10577 AND";
"2 1 10577 3475 3474 XOR";
"2 1 3829 3474 10574 XOR";
"2 1 10576 3474 3878 XOR";
"2 1 1004 3474 10575 XOR";
"2 1 10575 10574 10573 AND";
"2 1 10573 3474 3473 XOR";
"2 1 3828 3473 10570 XOR";
"2 1 10572 3473 3877 XOR";
"2 1 1003 3473 10571 XOR";
"2 1 10571 10570 10569 AND";
"2 1 10569 3473 3472 XOR";
"2 1 3827 3472 10566 XOR";
"2 1 10568 3472 3876 XOR";
"2 1 1002 3472 10567 XOR";
"2 1 10567 10566 10565 AND";
"2 1 10565 3472 3471 XOR";
"2 1 3826 3471 10562 XOR";
"2 1 10564 3471 3875 XOR";
"2 1 1001 3471 10563 XOR";
"2 1 10563 10562 10561 AND";
"2 1 10561 3471 3470 XOR";
"2 1 3825 3470 10558 XOR";
"2 1 10560 3470 3874 XOR";
"2 1 1000 3470 10559 XOR";
"2 1 10559 10558 10557 AND";
"2 1 10557 3470 3469 XOR";
"2 1 3824 3469 10554 XOR";
"2 1 10556 3469 3873 XOR";
"2 1 999 3469 10555 XOR";
"2 1 10555 10554 10553 AND";
"2 1 10553 3469 3468 XOR";
"2 1 3823 3468 10550 XOR";
"2 1 10552 3468 3872 XOR";
"2 1 998 3468 10551 XOR";
"2 1 10551 10550 10549 AND";
"2 1 10549 3468 3467 XOR";
"2 1 3822 3467 10546 XOR";
"2 1 10548 3467 3871 XOR";
"2 1 997 3467 10547 XOR";
"2 1 10547 10546 10545 AND";
"2 1 10545 3467 3466 XOR";
"2 1 3821 3466 10542 XOR";
"2 1 10544 3466 3870 XOR";
"2 1 996 3466 10543 XOR";
"2 1 10543 10542 10541 AND";
"2 1 10541 3466 3465 XOR";
"2 1 3820 3465 10538 XOR";
"2 1 10540 3465 3869 XOR";
"2 1 995 3465 10539 XOR";
"2 1 10539 10538 10537 AND";
"2 1 10537 3465 3464 XOR";
"2 1 3819 3464 10534 XOR";
"2 1 10536 3464 3868 XOR";
"2 1 994 3464 10535 XOR";
"2 1 10535 10534 10533 AND";
"2 1 10533 3464 3463 XOR";
"2 1 3818 3463 10530 XOR";
"2 1 10532 3463 3867 XOR";
"2 1 993 3463 10531 XOR";
"2 1 10531 10530 10529 AND";
"2 1 10529 3463 3462 XOR";
"2 1 3817 3462 10526 XOR";
"2 1 10528 3462 3866 XOR";
"2 1 992 3462 10527 XOR";
"2 1 10527 10526 10525 AND";
"2 1 10525 3462 3461 XOR";
"2 1 3816 3461 10522 XOR";
"2 1 10524 3461 3865 XOR";
"2 1 991 3461 10523 XOR";
"2 1 10523 10522 10521 AND";
"2 1 10521 3461 3460 XOR";
"2 1 3815 3460 10518 XOR";
"2 1 10520 3460 3864 XOR";
"2 1 990 3460 10519 XOR";
"2 1 10519 10518 10517 AND";
"2 1 10517 3460 3459 XOR";
"2 1 3814 3459 10514 XOR";
"2 1 10516 3459 3863 XOR";
"2 1 989 3459 10515 XOR";
"2 1 10515 10514 10513 AND";
"2 1 10513 3459 3458 XOR";
"2 1 3813 3458 10510 XOR";
"2 1 10512 3458 3862 XOR";
"2 1 988 3458 10511 XOR";
"2 1 10511 10510 10509 AND";
"2 1 10509 3458 3457 XOR";
"2 1 3812 3457 10506 XOR";
"2 1 10508 3457 3861 XOR";
"2 1 987 3457 10507 XOR";
"2 1 10507 10506 10505 AND";
"2 1 10505 3457 3456 XOR";
"2 1 3811 3456 10502 XOR";
"2 1 10504 3456 3860 XOR";
"2 1 986 3456 10503 XOR";
"2 1 10503 10502 10501 AND";
"2 1 10501 3456 3455 XOR";
"2 1 3810 3455 10498 XOR";
"2 1 10500 3455 3859 XOR";
"2 1 985 3455 10499 XOR";
"2 1 10499 10498 10497 AND";
"2 1 10497 3455 3454 XOR";
"2 1 3809 3454 10494 XOR";
"2 1 10496 3454 3858 XOR";
"2 1 984 3454 10495 XOR";
"2 1 10495 10494 10493 AND";
"2 1 10493 3454 3453 XOR";
"2 1 3808 3453 10490 XOR";
"2 1 10492 3453 3857 XOR";
"2 1 983 3453 10491 XOR";
"2 1 10491 10490 10489 AND";
"2 1 10489 3453 3452 XOR";
"2 1 10488 3452 3856 XOR";
"2 1 3895 3539 10457 XOR";
"2 1 10458 10457 10456 AND";
"2 1 10456 3539 3538 XOR";
"2 1 1070 3895 10459 XOR";
"2 1 10459 3539 3943 XOR";
"2 1 3894 3538 10453 XOR";
"2 1 1069 3894 10455 XOR";
"2 1 10455 3538 3942 XOR";
"2 1 1069 3538 10454 XOR";
"2 1 10454 10453 10452 AND";
"2 1 10452 3538 3537 XOR";
"2 1 1068 3537 10450 XOR";
"2 1 1068 3893 10451 XOR";
"2 1 10451 3537 3941 XOR";
"2 1 3893 3537 10449 XOR";
"2 1 10450 10449 10448 AND";
"2 1 10448 3537 3536 XOR";
"2 1 1067 3892 10447 XOR";
"2 1 10447 3536 3940 XOR";
"2 1 1067 3536 10446 XOR";
"2 1 3892 3536 10445 XOR";
"2 1 10446 10445 10444 AND";
"2 1 10444 3536 3535 XOR";
"2 1 1066 3891 10443 XOR";
"2 1 10443 3535 3939 XOR";
"2 1 1066 3535 10442 XOR";
"2 1 3891 3535 10441 XOR";
"2 1 10442 10441 10440 AND";
"2 1 10440 3535 3534 XOR";
"2 1 1065 3890 10439 XOR";
"2 1 10439 3534 3938 XOR";
"2 1 1065 3534 10438 XOR";
"2 1 3890 3534 10437 XOR";
"2 1 10438 10437 10436 AND";
"2 1 10436 3534 3533 XOR";
"2 1 1064 3889 10435 XOR";
"2 1 10435 3533 3937 XOR";
"2 1 1064 3533 10434 XOR";
"2 1 3889 3533 10433 XOR";
"2 1 10434 10433 10432 AND";
"2 1 10432 3533 3532 XOR";
"2 1 1063 3888 10431 XOR";
"2 1 10431 3532 3936 XOR";
"2 1 1063 3532 10430 XOR";
"2 1 3888 3532 10429 XOR";
"2 1 10430 10429 10428 AND";
"2 1 10428 3532 3531 XOR";
"2 1 1062 3887 10427 XOR";
"2 1 10427 3531 3935 XOR";
"2 1 1062 3531 10426 XOR";
"2 1 3887 3531 10425 XOR";
"2 1 10426 10425 10424 AND";
"2 1 10424 3531 3530 XOR";
"2 1 1061 3886 10423 XOR";
"2 1 10423 3530 3934 XOR";
"2 1 1061 3530 10422 XOR";
"2 1 3886 3530 10421 XOR";
"2 1 10422 10421 10420 AND";
"2 1 10420 3530 3529 XOR";
"2 1 1060 3885 10419 XOR";
"2 1 10419 3529 3933 XOR";
"2 1 1060 3529 10418 XOR";
"2 1 3885 3529 10417 XOR";
"2 1 10418 10417 10416 AND";
"2 1 10416 3529 3528 XOR";
"2 1 10415 3528 3932 XOR";
"2 1 1059 3528 10414 XOR";
"2 1 1058 3883 10411 XOR";
"2 1 3884 3528 10413 XOR";
"2 1 10414 10413 10412 AND";
"2 1 10412 3528 3527 XOR";
"2 1 10411 3527 3931 XOR";
"2 1 1058 3527 10410 XOR";
"2 1 1057 3882 10407 XOR";
"2 1 3883 3527 10409 XOR";
"2 1 10410 10409 10408 AND";
"2 1 10408 3527 3526 XOR";
"2 1 10407 3526 3930 XOR";
"2 1 1057 3526 10406 XOR";
"2 1 1056 3881 10403 XOR";
"2 1 3882 3526 10405 XOR";
"2 1 10406 10405 10404 AND";
"2 1 10404 3526 3525 XOR";
"2 1 10403 3525 3929 XOR";
"2 1 1056 3525 10402 XOR";
"2 1 1055 3880 10399 XOR";
"2 1 3881 3525 10401 XOR";
"2 1 10402 10401 10400 AND";
"2 1 10400 3525 3524 XOR";
"2 1 10399 3524 3928 XOR";
"2 1 1055 3524 10398 XOR";
"2 1 1054 3879 10395 XOR";
"2 1 3880 3524 10397 XOR";
"2 1 10398 10397 10396 AND";
"2 1 10396 3524 3523 XOR";
"2 1 10395 3523 3927 XOR";
"2 1 1054 3523 10394 XOR";
"2 1 1053 3878 10391 XOR";
"2 1 3879 3523 10393 XOR";
"2 1 10394 10393 10392 AND";
"2 1 10392 3523 3522 XOR";
"2 1 10391 3522 3926 XOR";
"2 1 1053 3522 10390 XOR";
"2 1 1052 3877 10387 XOR";
"2 1 3878 3522 10389 XOR";
"2 1 10390 10389 10388 AND";
"2 1 10388 3522 3521 XOR";
"2 1 10387 3521 3925 XOR";
"2 1 1052 3521 10386 XOR";
"2 1 1051 3876 10383 XOR";
"2 1 3877 3521 10385 XOR";
"2 1 10386 10385 10384 AND";
"2 1 10384 3521 3520 XOR";
"2 1 10383 3520 3924 XOR";
"2 1 1051 3520 10382 XOR";
"2 1 1050 3875 10379 XOR";
"2 1 3876 3520 10381 XOR";
"2 1 10382 10381 10380 AND";
"2 1 10380 3520 3519 XOR";
"2 1 10379 3519 3923 XOR";
"2 1 1050 3519 10378 XOR";
"2 1 1049 3874 10375 XOR";
"2 1 3875 3519 10377 XOR";
"2 1 10378 10377 10376 AND";
"2 1 10376 3519 3518 XOR";
"2 1 10375 3518 3922 XOR";
"2 1 1049 3518 10374 XOR";
"2 1 1048 3873 10371 XOR";
"2 1 3874 3518 10373 XOR";
"2 1 10374 10373 10372 AND";
"2 1 10372 3518 3517 XOR";
"2 1 10371 3517 3921 XOR";
"2 1 1048 3517 10370 XOR";
"2 1 1047 3872 10367 XOR";
"2 1 3873 3517 10369 XOR";
"2 1 10370 10369 10368 AND";
"2 1 10368 3517 3516 XOR";
"2 1 10367 3516 3920 XOR";
"2 1 1047 3516 10366 XOR";
"2 1 1046 3871 10363 XOR";
"2 1 3872 3516 10365 XOR";
"2 1 10366 10365 10364 AND";
"2 1 10364 3516 3515 XOR";
"2 1 10363 3515 3919 XOR";
"2 1 1046 3515 10362 XOR";
"2 1 1045 3870 10359 XOR";
"2 1 3871 3515 10361 XOR";
"2 1 10362 10361 10360 AND";
"2 1 10360 3515 3514 XOR";
"2 1 10359 3514 3918 XOR";
"2 1 1045 3514 10358 XOR";
"2 1 1044 3869 10355 XOR";
"2 1 3870 3514 10357 XOR";
"2 1 10358 10357 10356 AND";
"2 1 10356 3514 3513 XOR";
"2 1 10355 3513 3917 XOR";
"2 1 1044 3513 10354 XOR";
"2 1 1043 3868 10351 XOR";
"2 1 3869 3513 10353 XOR";
"2 1 10354 10353 10352 AND";
"2 1 10352 3513 3512 XOR";
"2 1 10351 3512 3916 XOR";
"2 1 1043 3512 10350 XOR";
"2 1 1042 3867 10347 XOR";
"2 1 3868 3512 10349 XOR";
"2 1 10350 10349 10348 AND";
"2 1 10348 3512 3511 XOR";
"2 1 10347 3511 3915 XOR";
"2 1 1042 3511 10346 XOR";
"2 1 1041 3866 10343 XOR";
"2 1 3867 3511 10345 XOR";
"2 1 10346 10345 10344 AND";
"2 1 10344 3511 3510 XOR";
"2 1 10343 3510 3914 XOR";
"2 1 1041 3510 10342 XOR";
"2 1 1040 3865 10339 XOR";
"2 1 3866 3510 10341 XOR";
"2 1 10342 10341 10340 AND";
"2 1 10340 3510 3509 XOR";
"2 1 10339 3509 3913 XOR";
"2 1 1040 3509 10338 XOR";
"2 1 1039 3864 10335 XOR";
"2 1 3865 3509 10337 XOR";
"2 1 10338 10337 10336 AND";
"2 1 10336 3509 3508 XOR";
"2 1 10335 3508 3912 XOR";
"2 1 1039 3508 10334 XOR";
"2 1 1038 3863 10331 XOR";
"2 1 3864 3508 10333 XOR";
"2 1 10334 10333 10332 AND";
"2 1 10332 3508 3507 XOR";
"2 1 10331 3507 3911 XOR";
"2 1 1038 3507 10330 XOR";
"2 1 1037 3862 10327 XOR";
"2 1 3863 3507 10329 XOR";
"2 1 10330 10329 10328 AND";
"2 1 10328 3507 3506 XOR";
"2 1 10327 3506 3910 XOR";
"2 1 1037 3506 10326 XOR";
"2 1 1036 3861 10323 XOR";
"2 1 3862 3506 10325 XOR";
"2 1 10326 10325 10324 AND";
"2 1 10324 3506 3505 XOR";
"2 1 10323 3505 3909 XOR";
"2 1 1036 3505 10322 XOR";
"2 1 1035 3860 10319 XOR";
"2 1 3861 3505 10321 XOR";
"2 1 10322 10321 10320 AND";
"2 1 10320 3505 3504 XOR";
"2 1 10319 3504 3908 XOR";
"2 1 1035 3504 10318 XOR";
"2 1 1034 3859 10315 XOR";
"2 1 3860 3504 10317 XOR";
"2 1 10318 10317 10316 AND";
"2 1 10316 3504 3503 XOR";
"2 1 10315 3503 3907 XOR";
"2 1 1034 3503 10314 XOR";
"2 1 1033 3858 10311 XOR";
"2 1 3859 3503 10313 XOR";
"2 1 10314 10313 10312 AND";
"2 1 10312 3503 3502 XOR";
"2 1 10311 3502 3906 XOR";
"2 1 1033 3502 10310 XOR";
"2 1 1032 3857 10307 XOR";
"2 1 3858 3502 10309 XOR";
"2 1 10310 10309 10308 AND";
"2 1 10308 3502 3501 XOR";
"2 1 10307 3501 3905 XOR";
"2 1 1032 3501 10306 XOR";
"2 1 1031 3856 10303 XOR";
"2 1 3857 3501 10305 XOR";
"2 1 10306 10305 10304 AND";
"2 1 10304 3501 3500 XOR";
"2 1 10303 3500 3904 XOR";
"2 1 1118 3943 10278 XOR";
"2 1 3943 3990 10276 XOR";
"2 1 10278 3990 4330 XOR";
"2 1 10277 10276 10275 AND";
"2 1 10275 3990 3989 XOR";
"2 1 1117 3942 10274 XOR";
"2 1 3942 3989 10272 XOR";
"2 1 10274 3989 4329 XOR";
"2 1 1116 3941 10270 XOR";
"2 1 1117 3989 10273 XOR";
"2 1 10273 10272 10271 AND";
"2 1 10271 3989 3988 XOR";
"2 1 3941 3988 10268 XOR";
"2 1 10270 3988 4328 XOR";
"2 1 1115 3940 10266 XOR";
"2 1 1116 3988 10269 XOR";
"2 1 10269 10268 10267 AND";
"2 1 10267 3988 3987 XOR";
"2 1 1115 3987 10265 XOR";
"2 1 10266 3987 4327 XOR";
"2 1 3940 3987 10264 XOR";
"2 1 10265 10264 10263 AND";
"2 1 10263 3987 3986 XOR";
"2 1 1114 3986 10261 XOR";
"2 1 1114 3939 10262 XOR";
"2 1 10262 3986 4326 XOR";
"2 1 3939 3986 10260 XOR";
"2 1 10261 10260 10259 AND";
"2 1 10259 3986 3985 XOR";
"2 1 1113 3985 10257 XOR";
"2 1 1113 3938 10258 XOR";
"2 1 10258 3985 4325 XOR";
"2 1 3938 3985 10256 XOR";
"2 1 10257 10256 10255 AND";
"2 1 10255 3985 3984 XOR";
"2 1 1112 3984 10253 XOR";
"2 1 1112 3937 10254 XOR";
"2 1 10254 3984 4324 XOR";
"2 1 3937 3984 10252 XOR";
"2 1 10253 10252 10251 AND";
"2 1 10251 3984 3983 XOR";
"2 1 1111 3983 10249 XOR";
"2 1 1111 3936 10250 XOR";
"2 1 10250 3983 4323 XOR";
"2 1 3936 3983 10248 XOR";
"2 1 10249 10248 10247 AND";
"2 1 10247 3983 3982 XOR";
"2 1 1110 3982 10245 XOR";
"2 1 1110 3935 10246 XOR";
"2 1 10246 3982 4322 XOR";
"2 1 3935 3982 10244 XOR";
"2 1 10245 10244 10243 AND";
"2 1 10243 3982 3981 XOR";
"2 1 1109 3981 10241 XOR";
"2 1 1109 3934 10242 XOR";
"2 1 10242 3981 4321 XOR";
"2 1 3934 3981 10240 XOR";
"2 1 10241 10240 10239 AND";
"2 1 10239 3981 3980 XOR";
"2 1 1108 3980 10237 XOR";
"2 1 1108 3933 10238 XOR";
"2 1 10238 3980 4320 XOR";
"2 1 3933 3980 10236 XOR";
"2 1 10237 10236 10235 AND";
"2 1 10235 3980 3979 XOR";
"2 1 1107 3979 10233 XOR";
"2 1 1107 3932 10234 XOR";
"2 1 10234 3979 4319 XOR";
"2 1 3932 3979 10232 XOR";
"2 1 10233 10232 10231 AND";
"2 1 10231 3979 3978 XOR";
"2 1 1106 3978 10229 XOR";
"2 1 1106 3931 10230 XOR";
"2 1 10230 3978 4318 XOR";
"2 1 3931 3978 10228 XOR";
"2 1 10229 10228 10227 AND";
"2 1 10227 3978 3977 XOR";
"2 1 1105 3977 10225 XOR";
"2 1 1105 3930 10226 XOR";
"2 1 10226 3977 4317 XOR";
"2 1 3930 3977 10224 XOR";
"2 1 10225 10224 10223 AND";
"2 1 10223 3977 3976 XOR";
"2 1 1104 3976 10221 XOR";
"2 1 1104 3929 10222 XOR";
"2 1 10222 3976 4316 XOR";
"2 1 3929 3976 10220 XOR";
"2 1 10221 10220 10219 AND";
"2 1 10219 3976 3975 XOR";
"2 1 1103 3975 10217 XOR";
"2 1 1103 3928 10218 XOR";
"2 1 10218 3975 4315 XOR";
"2 1 3928 3975 10216 XOR";
"2 1 10217 10216 10215 AND";
"2 1 10215 3975 3974 XOR";
"2 1 1102 3974 10213 XOR";
"2 1 1102 3927 10214 XOR";
"2 1 10214 3974 4314 XOR";
"2 1 3927 3974 10212 XOR";
"2 1 10213 10212 10211 AND";
"2 1 10211 3974 3973 XOR";
"2 1 1101 3973 10209 XOR";
"2 1 1101 3926 10210 XOR";
"2 1 10210 3973 4313 XOR";
"2 1 3926 3973 10208 XOR";
"2 1 10209 10208 10207 AND";
"2 1 10207 3973 3972 XOR";
"2 1 1100 3972 10205 XOR";
"2 1 1100 3925 10206 XOR";
"2 1 10206 3972 4312 XOR";
"2 1 3925 3972 10204 XOR";
"2 1 10205 10204 10203 AND";
"2 1 10203 3972 3971 XOR";
"2 1 1099 3971 10201 XOR";
"2 1 1099 3924 10202 XOR";
"2 1 10202 3971 4311 XOR";
"2 1 3924 3971 10200 XOR";
"2 1 10201 10200 10199 AND";
"2 1 10199 3971 3970 XOR";
"2 1 1098 3970 10197 XOR";
"2 1 1098 3923 10198 XOR";
"2 1 10198 3970 4310 XOR";
"2 1 3923 3970 10196 XOR";
"2 1 10197 10196 10195 AND";
"2 1 10195 3970 3969 XOR";
"2 1 1097 3969 10193 XOR";
"2 1 1097 3922 10194 XOR";
"2 1 10194 3969 4309 XOR";
"2 1 3922 3969 10192 XOR";
"2 1 10193 10192 10191 AND";
"2 1 10191 3969 3968 XOR";
"2 1 1096 3968 10189 XOR";
"2 1 1096 3921 10190 XOR";
"2 1 10190 3968 4308 XOR";
"2 1 3921 3968 10188 XOR";
"2 1 10189 10188 10187 AND";
"2 1 10187 3968 3967 XOR";
"2 1 1095 3967 10185 XOR";
"2 1 1095 3920 10186 XOR";
"2 1 10186 3967 4307 XOR";
"2 1 3920 3967 10184 XOR";
"2 1 10185 10184 10183 AND";
"2 1 10183 3967 3966 XOR";
"2 1 1094 3966 10181 XOR";
"2 1 1094 3919 10182 XOR";
"2 1 10182 3966 4306 XOR";
"2 1 3919 3966 10180 XOR";
"2 1 10181 10180 10179 AND";
"2 1 10179 3966 3965 XOR";
"2 1 1093 3965 10177 XOR";
"2 1 1093 3918 10178 XOR";
"2 1 10178 3965 4305 XOR";
"2 1 3918 3965 10176 XOR";
"2 1 10177 10176 10175 AND";
"2 1 10175 3965 3964 XOR";
"2 1 1092 3964 10173 XOR";
"2 1 1092 3917 10174 XOR";
"2 1 10174 3964 4304 XOR";
"2 1 3917 3964 10172 XOR";
"2 1 10173 10172 10171 AND";
"2 1 10171 3964 3963 XOR";
"2 1 1091 3963 10169 XOR";
"2 1 1091 3916 10170 XOR";
"2 1 10170 3963 4303 XOR";
"2 1 3916 3963 10168 XOR";
"2 1 10169 10168 10167 AND";
"2 1 10167 3963 3962 XOR";
"2 1 1090 3962 10165 XOR";
"2 1 1090 3915 10166 XOR";
"2 1 10166 3962 4302 XOR";
"2 1 3915 3962 10164 XOR";
"2 1 10165 10164 10163 AND";
"2 1 10163 3962 3961 XOR";
"2 1 1089 3961 10161 XOR";
"2 1 1089 3914 10162 XOR";
"2 1 10162 3961 4301 XOR";
"2 1 3914 3961 10160 XOR";
"2 1 10161 10160 10159 AND";
"2 1 10159 3961 3960 XOR";
"2 1 1088 3960 10157 XOR";
"2 1 1088 3913 10158 XOR";
"2 1 10158 3960 4300 XOR";
"2 1 3913 3960 10156 XOR";
"2 1 10157 10156 10155 AND";
"2 1 10155 3960 3959 XOR";
"2 1 1087 3959 10153 XOR";
"2 1 1087 3912 10154 XOR";
"2 1 10154 3959 4299 XOR";
"2 1 3912 3959 10152 XOR";
"2 1 10153 10152 10151 AND";
"2 1 10151 3959 3958 XOR";
"2 1 1086 3958 10149 XOR";
"2 1 1086 3911 10150 XOR";
"2 1 10150 3958 4298 XOR";
"2 1 3911 3958 10148 XOR";
"2 1 10149 10148 10147 AND";
"2 1 10147 3958 3957 XOR";
"2 1 1085 3957 10145 XOR";
"2 1 1085 3910 10146 XOR";
"2 1 10146 3957 4297 XOR";
"2 1 3910 3957 10144 XOR";
"2 1 10145 10144 10143 AND";
"2 1 10143 3957 3956 XOR";
"2 1 1084 3956 10141 XOR";
"2 1 1084 3909 10142 XOR";
"2 1 10142 3956 4296 XOR";
"2 1 3909 3956 10140 XOR";
"2 1 10141 10140 10139 AND";
"2 1 10139 3956 3955 XOR";
"2 1 1083 3955 10137 XOR";
"2 1 1083 3908 10138 XOR";
"2 1 10138 3955 4295 XOR";
"2 1 3908 3955 10136 XOR";
"2 1 10137 10136 10135 AND";
"2 1 10135 3955 3954 XOR";
"2 1 1082 3954 10133 XOR";
"2 1 1082 3907 10134 XOR";
"2 1 10134 3954 4294 XOR";
"2 1 3907 3954 10132 XOR";
"2 1 10133 10132 10131 AND";
"2 1 10131 3954 3953 XOR";
"2 1 1081 3953 10129 XOR";
"2 1 1081 3906 10130 XOR";
"2 1 10130 3953 4293 XOR";
"2 1 3906 3953 10128 XOR";
"2 1 10129 10128 10127 AND";
"2 1 10127 3953 3952 XOR";
"2 1 1080 3952 10125 XOR";
"2 1 1080 3905 10126 XOR";
"2 1 10126 3952 4292 XOR";
"2 1 3905 3952 10124 XOR";
"2 1 10125 10124 10123 AND";
"2 1 10123 3952 3951 XOR";
"2 1 1079 3904 10122 XOR";
"2 1 10122 3951 4291 XOR";
"2 1 1165 4330 10101 XOR";
"2 1 10101 4036 4376 XOR";
"2 1 4330 4036 10099 XOR";
"2 1 10100 10099 10098 AND";
"2 1 10098 4036 4035 XOR";
"2 1 1164 4329 10097 XOR";
"2 1 10097 4035 4375 XOR";
"2 1 4329 4035 10095 XOR";
"2 1 1164 4035 10096 XOR";
"2 1 10096 10095 10094 AND";
"2 1 10094 4035 4034 XOR";
"2 1 1163 4328 10093 XOR";
"2 1 10093 4034 4374 XOR";
"2 1 4328 4034 10091 XOR";
"2 1 1163 4034 10092 XOR";
"2 1 10092 10091 10090 AND";
"2 1 10090 4034 4033 XOR";
"2 1 1162 4327 10089 XOR";
"2 1 10089 4033 4373 XOR";
"2 1 4327 4033 10087 XOR";
"2 1 1162 4033 10088 XOR";
"2 1 10088 10087 10086 AND";
"2 1 10086 4033 4032 XOR";
"2 1 1161 4326 10085 XOR";
"2 1 10085 4032 4372 XOR";
"2 1 4326 4032 10083 XOR";
"2 1 1161 4032 10084 XOR";
"2 1 10084 10083 10082 AND";
"2 1 10082 4032 4031 XOR";
"2 1 1160 4325 10081 XOR";
"2 1 10081 4031 4371 XOR";
"2 1 4325 4031 10079 XOR";
"2 1 1160 4031 10080 XOR";
"2 1 10080 10079 10078 AND";
"2 1 10078 4031 4030 XOR";
"2 1 1159 4324 10077 XOR";
"2 1 10077 4030 4370 XOR";
"2 1 4324 4030 10075 XOR";
"2 1 1159 4030 10076 XOR";
"2 1 10076 10075 10074 AND";
"2 1 10074 4030 4029 XOR";
"2 1 1158 4323 10073 XOR";
"2 1 10073 4029 4369 XOR";
"2 1 4323 4029 10071 XOR";
"2 1 1158 4029 10072 XOR";
"2 1 10072 10071 10070 AND";
"2 1 10070 4029 4028 XOR";
"2 1 1157 4322 10069 XOR";
"2 1 10069 4028 4368 XOR";
"2 1 4322 4028 10067 XOR";
"2 1 1157 4028 10068 XOR";
"2 1 10068 10067 10066 AND";
"2 1 10066 4028 4027 XOR";
"2 1 1156 4321 10065 XOR";
"2 1 10065 4027 4367 XOR";
"2 1 1156 4027 10064 XOR";
"2 1 1155 4320 10061 XOR";
"2 1 4321 4027 10063 XOR";
"2 1 10064 10063 10062 AND";
"2 1 10062 4027 4026 XOR";
"2 1 10061 4026 4366 XOR";
"2 1 1155 4026 10060 XOR";
"2 1 1154 4319 10057 XOR";
"2 1 4320 4026 10059 XOR";
"2 1 10060 10059 10058 AND";
"2 1 10058 4026 4025 XOR";
"2 1 10057 4025 4365 XOR";
"2 1 1154 4025 10056 XOR";
"2 1 1153 4318 10053 XOR";
"2 1 4319 4025 10055 XOR";
"2 1 10056 10055 10054 AND";
"2 1 10054 4025 4024 XOR";
"2 1 10053 4024 4364 XOR";
"2 1 1153 4024 10052 XOR";
"2 1 1152 4317 10049 XOR";
"2 1 4318 4024 10051 XOR";
"2 1 10052 10051 10050 AND";
"2 1 10050 4024 4023 XOR";
"2 1 10049 4023 4363 XOR";
"2 1 1152 4023 10048 XOR";
"2 1 1151 4316 10045 XOR";
"2 1 4317 4023 10047 XOR";
"2 1 10048 10047 10046 AND";
"2 1 10046 4023 4022 XOR";
"2 1 10045 4022 4362 XOR";
"2 1 1151 4022 10044 XOR";
"2 1 1150 4315 10041 XOR";
"2 1 4316 4022 10043 XOR";
"2 1 10044 10043 10042 AND";
"2 1 10042 4022 4021 XOR";
"2 1 10041 4021 4361 XOR";
"2 1 1150 4021 10040 XOR";
"2 1 1149 4314 10037 XOR";
"2 1 4315 4021 10039 XOR";
"2 1 10040 10039 10038 AND";
"2 1 10038 4021 4020 XOR";
"2 1 10037 4020 4360 XOR";
"2 1 1149 4020 10036 XOR";
"2 1 1148 4313 10033 XOR";
"2 1 4314 4020 10035 XOR";
"2 1 10036 10035 10034 AND";
"2 1 10034 4020 4019 XOR";
"2 1 10033 4019 4359 XOR";
"2 1 1148 4019 10032 XOR";
"2 1 1147 4312 10029 XOR";
"2 1 4313 4019 10031 XOR";
"2 1 10032 10031 10030 AND";
"2 1 10030 4019 4018 XOR";
"2 1 10029 4018 4358 XOR";
"2 1 1147 4018 10028 XOR";
"2 1 1146 4311 10025 XOR";
"2 1 4312 4018 10027 XOR";
"2 1 10028 10027 10026 AND";
"2 1 10026 4018 4017 XOR";
"2 1 10025 4017 4357 XOR";
"2 1 1146 4017 10024 XOR";
"2 1 1145 4310 10021 XOR";
"2 1 4311 4017 10023 XOR";
"2 1 10024 10023 10022 AND";
"2 1 10022 4017 4016 XOR";
"2 1 10021 4016 4356 XOR";
"2 1 1145 4016 10020 XOR";
"2 1 1144 4309 10017 XOR";
"2 1 4310 4016 10019 XOR";
"2 1 10020 10019 10018 AND";
"2 1 10018 4016 4015 XOR";
"2 1 10017 4015 4355 XOR";
"2 1 1144 4015 10016 XOR";
"2 1 1143 4308 10013 XOR";
"2 1 4309 4015 10015 XOR";
"2 1 10016 10015 10014 AND";
"2 1 10014 4015 4014 XOR";
"2 1 10013 4014 4354 XOR";
"2 1 1143 4014 10012 XOR";
"2 1 1142 4307 10009 XOR";
"2 1 4308 4014 10011 XOR";
"2 1 10012 10011 10010 AND";
"2 1 10010 4014 4013 XOR";
"2 1 10009 4013 4353 XOR";
"2 1 1142 4013 10008 XOR";
"2 1 1141 4306 10005 XOR";
"2 1 4307 4013 10007 XOR";
"2 1 10008 10007 10006 AND";
"2 1 10006 4013 4012 XOR";
"2 1 10005 4012 4352 XOR";
"2 1 1141 4012 10004 XOR";
"2 1 1140 4305 10001 XOR";
"2 1 4306 4012 10003 XOR";
"2 1 10004 10003 10002 AND";
"2 1 10002 4012 4011 XOR";
"2 1 4305 4011 9999 XOR";
"2 1 10001 4011 4351 XOR";
"2 1 1140 4011 10000 XOR";
"2 1 1139 4304 9997 XOR";
"2 1 10000 9999 9998 AND";
"2 1 9998 4011 4010 XOR";
"2 1 4304 4010 9995 XOR";
"2 1 9997 4010 4350 XOR";
"2 1 1138 4303 9993 XOR";
"2 1 1139 4010 9996 XOR";
"2 1 9996 9995 9994 AND";
"2 1 9994 4010 4009 XOR";
"2 1 4303 4009 9991 XOR";
"2 1 9993 4009 4349 XOR";
"2 1 1137 4302 9989 XOR";
"2 1 1138 4009 9992 XOR";
"2 1 9992 9991 9990 AND";
"2 1 9990 4009 4008 XOR";
"2 1 4302 4008 9987 XOR";
"2 1 9989 4008 4348 XOR";
"2 1 1137 4008 9988 XOR";
"2 1 9988 9987 9986 AND";
"2 1 9986 4008 4007 XOR";
"2 1 1136 4301 9985 XOR";
"2 1 9985 4007 4347 XOR";
"2 1 1136 4007 9984 XOR";
"2 1 4301 4007 9983 XOR";
"2 1 9984 9983 9982 AND";
"2 1 9982 4007 4006 XOR";
"2 1 1135 4300 9981 XOR";
"2 1 9981 4006 4346 XOR";
"2 1 1135 4006 9980 XOR";
"2 1 4300 4006 9979 XOR";
"2 1 9980 9979 9978 AND";
"2 1 9978 4006 4005 XOR";
"2 1 1134 4299 9977 XOR";
"2 1 9977 4005 4345 XOR";
"2 1 1134 4005 9976 XOR";
"2 1 4299 4005 9975 XOR";
"2 1 9976 9975 9974 AND";
"2 1 9974 4005 4004 XOR";
"2 1 4298 4004 9971 XOR";
"2 1 1133 4298 9973 XOR";
"2 1 9973 4004 4344 XOR";
"2 1 1133 4004 9972 XOR";
"2 1 9972 9971 9970 AND";
"2 1 9970 4004 4003 XOR";
"2 1 1132 4003 9968 XOR";
"2 1 1132 4297 9969 XOR";
"2 1 9969 4003 4343 XOR";
"2 1 4297 4003 9967 XOR";
"2 1 9968 9967 9966 AND";
"2 1 9966 4003 4002 XOR";
"2 1 1131 4002 9964 XOR";
"2 1 1131 4296 9965 XOR";
"2 1 9965 4002 4342 XOR";
"2 1 4296 4002 9963 XOR";
"2 1 9964 9963 9962 AND";
"2 1 9962 4002 4001 XOR";
"2 1 1130 4001 9960 XOR";
"2 1 1130 4295 9961 XOR";
"2 1 9961 4001 4341 XOR";
"2 1 4295 4001 9959 XOR";
"2 1 9960 9959 9958 AND";
"2 1 9958 4001 4000 XOR";
"2 1 1129 4000 9956 XOR";
"2 1 1129 4294 9957 XOR";
"2 1 9957 4000 4340 XOR";
"2 1 4294 4000 9955 XOR";
"2 1 9956 9955 9954 AND";
"2 1 9954 4000 3999 XOR";
"2 1 1128 3999 9952 XOR";
"2 1 1128 4293 9953 XOR";
"2 1 9953 3999 4339 XOR";
"2 1 4293 3999 9951 XOR";
"2 1 9952 9951 9950 AND";
"2 1 9950 3999 3998 XOR";
"2 1 1127 3998 9948 XOR";
"2 1 1127 4292 9949 XOR";
"2 1 9949 3998 4338 XOR";
"2 1 4292 3998 9947 XOR";
"2 1 9948 9947 9946 AND";
"2 1 9946 3998 3997 XOR";
"2 1 1126 4291 9945 XOR";
"2 1 9945 3997 4337 XOR";
"2 1 1211 4376 9928 XOR";
"2 1 9928 4081 4421 XOR";
"2 1 4376 4081 9926 XOR";
"2 1 9927 9926 9925 AND";
"2 1 9925 4081 4080 XOR";
"2 1 1210 4375 9924 XOR";
"2 1 9924 4080 4420 XOR";
"2 1 1210 4080 9923 XOR";
"2 1 4375 4080 9922 XOR";
"2 1 9923 9922 9921 AND";
"2 1 9921 4080 4079 XOR";
"2 1 1209 4374 9920 XOR";
"2 1 9920 4079 4419 XOR";
"2 1 1209 4079 9919 XOR";
"2 1 4374 4079 9918 XOR";
"2 1 9919 9918 9917 AND";
"2 1 9917 4079 4078 XOR";
"2 1 1208 4373 9916 XOR";
"2 1 9916 4078 4418 XOR";
"2 1 1208 4078 9915 XOR";
"2 1 4373 4078 9914 XOR";
"2 1 9915 9914 9913 AND";
"2 1 9913 4078 4077 XOR";
"2 1 1207 4372 9912 XOR";
"2 1 9912 4077 4417 XOR";
"2 1 1252 4417 9743 XOR";
"2 1 1207 4077 9911 XOR";
"2 1 4372 4077 9910 XOR";
"2 1 9911 9910 9909 AND";
"2 1 9909 4077 4076 XOR";
"2 1 4371 4076 9906 XOR";
"2 1 1206 4371 9908 XOR";
"2 1 9908 4076 4416 XOR";
"2 1 1206 4076 9907 XOR";
"2 1 9907 9906 9905 AND";
"2 1 9905 4076 4075 XOR";
"2 1 1205 4075 9903 XOR";
"2 1 1205 4370 9904 XOR";
"2 1 9904 4075 4415 XOR";
"2 1 4370 4075 9902 XOR";
"2 1 9903 9902 9901 AND";
"2 1 9901 4075 4074 XOR";
"2 1 1204 4074 9899 XOR";
"2 1 1204 4369 9900 XOR";
"2 1 9900 4074 4414 XOR";
"2 1 4369 4074 9898 XOR";
"2 1 9899 9898 9897 AND";
"2 1 9897 4074 4073 XOR";
"2 1 1203 4073 9895 XOR";
"2 1 1203 4368 9896 XOR";
"2 1 9896 4073 4413 XOR";
"2 1 4368 4073 9894 XOR";
"2 1 9895 9894 9893 AND";
"2 1 9893 4073 4072 XOR";
"2 1 1202 4072 9891 XOR";
"2 1 1202 4367 9892 XOR";
"2 1 9892 4072 4412 XOR";
"2 1 4367 4072 9890 XOR";
"2 1 9891 9890 9889 AND";
"2 1 9889 4072 4071 XOR";
"2 1 1201 4071 9887 XOR";
"2 1 1201 4366 9888 XOR";
"2 1 9888 4071 4411 XOR";
"2 1 1246 4411 9719 XOR";
"2 1 4366 4071 9886 XOR";
"2 1 9887 9886 9885 AND";
"2 1 9885 4071 4070 XOR";
"2 1 1200 4070 9883 XOR";
"2 1 1200 4365 9884 XOR";
"2 1 9884 4070 4410 XOR";
"2 1 1245 4410 9715 XOR";
"2 1 4365 4070 9882 XOR";
"2 1 9883 9882 9881 AND";
"2 1 9881 4070 4069 XOR";
"2 1 1199 4069 9879 XOR";
"2 1 1199 4364 9880 XOR";
"2 1 9880 4069 4409 XOR";
"2 1 4364 4069 9878 XOR";
"2 1 9879 9878 9877 AND";
"2 1 9877 4069 4068 XOR";
"2 1 4363 4068 9874 XOR";
"2 1 1198 4363 9876 XOR";
"2 1 9876 4068 4408 XOR";
"2 1 1198 4068 9875 XOR";
"2 1 9875 9874 9873 AND";
"2 1 9873 4068 4067 XOR";
"2 1 4362 4067 9870 XOR";
"2 1 1197 4362 9872 XOR";
"2 1 9872 4067 4407 XOR";
"2 1 1197 4067 9871 XOR";
"2 1 9871 9870 9869 AND";
"2 1 9869 4067 4066 XOR";
"2 1 4361 4066 9866 XOR";
"2 1 1196 4361 9868 XOR";
"2 1 9868 4066 4406 XOR";
"2 1 1196 4066 9867 XOR";
"2 1 9867 9866 9865 AND";
"2 1 9865 4066 4065 XOR";
"2 1 4360 4065 9862 XOR";
"2 1 1195 4360 9864 XOR";
"2 1 9864 4065 4405 XOR";
"2 1 1195 4065 9863 XOR";
"2 1 9863 9862 9861 AND";
"2 1 9861 4065 4064 XOR";
"2 1 1194 4064 9859 XOR";
"2 1 1193 4358 9856 XOR";
"2 1 1194 4359 9860 XOR";
"2 1 9860 4064 4404 XOR";
"2 1 4359 4064 9858 XOR";
"2 1 9859 9858 9857 AND";
"2 1 9857 4064 4063 XOR";
"2 1 9856 4063 4403 XOR";
"2 1 1192 4357 9852 XOR";
"2 1 1193 4063 9855 XOR";
"2 1 4358 4063 9854 XOR";
"2 1 9855 9854 9853 AND";
"2 1 9853 4063 4062 XOR";
"2 1 9852 4062 4402 XOR";
"2 1 1191 4356 9848 XOR";
"2 1 1192 4062 9851 XOR";
"2 1 4357 4062 9850 XOR";
"2 1 9851 9850 9849 AND";
"2 1 9849 4062 4061 XOR";
"2 1 9848 4061 4401 XOR";
"2 1 1190 4355 9844 XOR";
"2 1 1191 4061 9847 XOR";
"2 1 4356 4061 9846 XOR";
"2 1 9847 9846 9845 AND";
"2 1 9845 4061 4060 XOR";
"2 1 9844 4060 4400 XOR";
"2 1 1189 4354 9840 XOR";
"2 1 1190 4060 9843 XOR";
"2 1 4355 4060 9842 XOR";
"2 1 9843 9842 9841 AND";
"2 1 9841 4060 4059 XOR";
"2 1 9840 4059 4399 XOR";
"2 1 1188 4353 9836 XOR";
"2 1 1189 4059 9839 XOR";
"2 1 4354 4059 9838 XOR";
"2 1 9839 9838 9837 AND";
"2 1 9837 4059 4058 XOR";
"2 1 1188 4058 9835 XOR";
"2 1 9836 4058 4398 XOR";
"2 1 4353 4058 9834 XOR";
"2 1 9835 9834 9833 AND";
"2 1 9833 4058 4057 XOR";
"2 1 1187 4057 9831 XOR";
"2 1 1187 4352 9832 XOR";
"2 1 9832 4057 4397 XOR";
"2 1 4352 4057 9830 XOR";
"2 1 9831 9830 9829 AND";
"2 1 9829 4057 4056 XOR";
"2 1 1186 4056 9827 XOR";
"2 1 1186 4351 9828 XOR";
"2 1 9828 4056 4396 XOR";
"2 1 1231 4396 9659 XOR";
"2 1 4351 4056 9826 XOR";
"2 1 9827 9826 9825 AND";
"2 1 9825 4056 4055 XOR";
"2 1 1185 4055 9823 XOR";
"2 1 1185 4350 9824 XOR";
"2 1 9824 4055 4395 XOR";
"2 1 1230 4395 9655 XOR";
"2 1 4350 4055 9822 XOR";
"2 1 9823 9822 9821 AND";
"2 1 9821 4055 4054 XOR";
"2 1 1184 4054 9819 XOR";
"2 1 1184 4349 9820 XOR";
"2 1 9820 4054 4394 XOR";
"2 1 4349 4054 9818 XOR";
"2 1 9819 9818 9817 AND";
"2 1 9817 4054 4053 XOR";
"2 1 1183 4053 9815 XOR";
"2 1 1183 4348 9816 XOR";
"2 1 9816 4053 4393 XOR";
"2 1 4348 4053 9814 XOR";
"2 1 9815 9814 9813 AND";
"2 1 9813 4053 4052 XOR";
"2 1 1182 4052 9811 XOR";
"2 1 4347 4052 9810 XOR";
"2 1 9811 9810 9809 AND";
"2 1 9809 4052 4051 XOR";
"2 1 1181 4051 9807 XOR";
"2 1 1182 4347 9812 XOR";
"2 1 9812 4052 4392 XOR";
"2 1 1181 4346 9808 XOR";
"2 1 9808 4051 4391 XOR";
"2 1 1226 4391 9639 XOR";
"2 1 4346 4051 9806 XOR";
"2 1 9807 9806 9805 AND";
"2 1 9805 4051 4050 XOR";
"2 1 1180 4345 9804 XOR";
"2 1 9804 4050 4390 XOR";
"2 1 1225 4390 9635 XOR";
"2 1 4345 4050 9802 XOR";
"2 1 1180 4050 9803 XOR";
"2 1 9803 9802 9801 AND";
"2 1 9801 4050 4049 XOR";
"2 1 1179 4344 9800 XOR";
"2 1 9800 4049 4389 XOR";
"2 1 1224 4389 9631 XOR";
"2 1 1179 4049 9799 XOR";
"2 1 4344 4049 9798 XOR";
"2 1 9799 9798 9797 AND";
"2 1 9797 4049 4048 XOR";
"2 1 1178 4048 9795 XOR";
"2 1 1178 4343 9796 XOR";
"2 1 9796 4048 4388 XOR";
"2 1 4343 4048 9794 XOR";
"2 1 9795 9794 9793 AND";
"2 1 9793 4048 4047 XOR";
"2 1 1177 4342 9792 XOR";
"2 1 9792 4047 4387 XOR";
"2 1 1222 4387 9623 XOR";
"2 1 1177 4047 9791 XOR";
"2 1 4342 4047 9790 XOR";
"2 1 9791 9790 9789 AND";
"2 1 9789 4047 4046 XOR";
"2 1 1176 4046 9787 XOR";
"2 1 1176 4341 9788 XOR";
"2 1 9788 4046 4386 XOR";
"2 1 4341 4046 9786 XOR";
"2 1 9787 9786 9785 AND";
"2 1 9785 4046 4045 XOR";
"2 1 1175 4045 9783 XOR";
"2 1 4340 4045 9782 XOR";
"2 1 9783 9782 9781 AND";
"2 1 9781 4045 4044 XOR";
"2 1 1174 4044 9779 XOR";
"2 1 1175 4340 9784 XOR";
"2 1 9784 4045 4385 XOR";
"2 1 1174 4339 9780 XOR";
"2 1 9780 4044 4384 XOR";
"2 1 4339 4044 9778 XOR";
"2 1 9779 9778 9777 AND";
"2 1 9777 4044 4043 XOR";
"2 1 1173 4338 9776 XOR";
"2 1 9776 4043 4383 XOR";
"2 1 4338 4043 9774 XOR";
"2 1 1173 4043 9775 XOR";
"2 1 9775 9774 9773 AND";
"2 1 9773 4043 4042 XOR";
"2 1 1172 4337 9772 XOR";
"2 1 9772 4042 4382 XOR";
"2 1 1255 4420 9755 XOR";
"2 1 1256 4421 9759 XOR";
"2 1 9759 4125 4465 XOR";
"2 1 1300 4465 9594 XOR";
"2 1 4421 4125 9757 XOR";
"2 1 9758 9757 9756 AND";
"2 1 9756 4125 4124 XOR";
"2 1 9755 4124 4464 XOR";
"2 1 1254 4419 9751 XOR";
"2 1 1255 4124 9754 XOR";
"2 1 4420 4124 9753 XOR";
"2 1 9754 9753 9752 AND";
"2 1 9752 4124 4123 XOR";
"2 1 9751 4123 4463 XOR";
"2 1 1254 4123 9750 XOR";
"2 1 4419 4123 9749 XOR";
"2 1 9750 9749 9748 AND";
"2 1 9748 4123 4122 XOR";
"2 1 4418 4122 9745 XOR";
"2 1 1253 4418 9747 XOR";
"2 1 9747 4122 4462 XOR";
"2 1 1253 4122 9746 XOR";
"2 1 9746 9745 9744 AND";
"2 1 9744 4122 4121 XOR";
"2 1 9743 4121 4461 XOR";
"2 1 1296 4461 9578 XOR";
"2 1 1251 4416 9739 XOR";
"2 1 1252 4121 9742 XOR";
"2 1 4417 4121 9741 XOR";
"2 1 9742 9741 9740 AND";
"2 1 9740 4121 4120 XOR";
"2 1 9739 4120 4460 XOR";
"2 1 1251 4120 9738 XOR";
"2 1 4416 4120 9737 XOR";
"2 1 9738 9737 9736 AND";
"2 1 9736 4120 4119 XOR";
"2 1 1250 4415 9735 XOR";
"2 1 9735 4119 4459 XOR";
"2 1 4415 4119 9733 XOR";
"2 1 1249 4414 9731 XOR";
"2 1 1250 4119 9734 XOR";
"2 1 9734 9733 9732 AND";
"2 1 9732 4119 4118 XOR";
"2 1 9731 4118 4458 XOR";
"2 1 1293 4458 9566 XOR";
"2 1 4414 4118 9729 XOR";
"2 1 1249 4118 9730 XOR";
"2 1 9730 9729 9728 AND";
"2 1 9728 4118 4117 XOR";
"2 1 4413 4117 9725 XOR";
"2 1 1248 4413 9727 XOR";
"2 1 9727 4117 4457 XOR";
"2 1 1292 4457 9562 XOR";
"2 1 1247 4412 9723 XOR";
"2 1 1248 4117 9726 XOR";
"2 1 9726 9725 9724 AND";
"2 1 9724 4117 4116 XOR";
"2 1 4412 4116 9721 XOR";
"2 1 9723 4116 4456 XOR";
"2 1 1247 4116 9722 XOR";
"2 1 9722 9721 9720 AND";
"2 1 9720 4116 4115 XOR";
"2 1 9719 4115 4455 XOR";
"2 1 4411 4115 9717 XOR";
"2 1 1246 4115 9718 XOR";
"2 1 9718 9717 9716 AND";
"2 1 9716 4115 4114 XOR";
"2 1 9715 4114 4454 XOR";
"2 1 4410 4114 9713 XOR";
"2 1 1245 4114 9714 XOR";
"2 1 9714 9713 9712 AND";
"2 1 9712 4114 4113 XOR";
"2 1 1244 4113 9710 XOR";
"2 1 4409 4113 9709 XOR";
"2 1 1244 4409 9711 XOR";
"2 1 9711 4113 4453 XOR";
"2 1 1288 4453 9546 XOR";
"2 1 9710 9709 9708 AND";
"2 1 9708 4113 4112 XOR";
"2 1 1243 4112 9706 XOR";
"2 1 1243 4408 9707 XOR";
"2 1 9707 4112 4452 XOR";
"2 1 4408 4112 9705 XOR";
"2 1 9706 9705 9704 AND";
"2 1 9704 4112 4111 XOR";
"2 1 1242 4407 9703 XOR";
"2 1 9703 4111 4451 XOR";
"2 1 1242 4111 9702 XOR";
"2 1 4407 4111 9701 XOR";
"2 1 9702 9701 9700 AND";
"2 1 9700 4111 4110 XOR";
"2 1 1241 4110 9698 XOR";
"2 1 1241 4406 9699 XOR";
"2 1 9699 4110 4450 XOR";
"2 1 1285 4450 9534 XOR";
"2 1 4406 4110 9697 XOR";
"2 1 9698 9697 9696 AND";
"2 1 9696 4110 4109 XOR";
"2 1 1240 4109 9694 XOR";
"2 1 4405 4109 9693 XOR";
"2 1 1240 4405 9695 XOR";
"2 1 9695 4109 4449 XOR";
"2 1 1284 4449 9530 XOR";
"2 1 1239 4404 9691 XOR";
"2 1 9694 9693 9692 AND";
"2 1 9692 4109 4108 XOR";
"2 1 9691 4108 4448 XOR";
"2 1 1239 4108 9690 XOR";
"2 1 4404 4108 9689 XOR";
"2 1 9690 9689 9688 AND";
"2 1 9688 4108 4107 XOR";
"2 1 4403 4107 9685 XOR";
"2 1 1238 4403 9687 XOR";
"2 1 9687 4107 4447 XOR";
"2 1 1282 4447 9522 XOR";
"2 1 1238 4107 9686 XOR";
"2 1 9686 9685 9684 AND";
"2 1 9684 4107 4106 XOR";
"2 1 4402 4106 9681 XOR";
"2 1 1237 4402 9683 XOR";
"2 1 9683 4106 4446 XOR";
"2 1 1281 4446 9518 XOR";
"2 1 1237 4106 9682 XOR";
"2 1 9682 9681 9680 AND";
"2 1 9680 4106 4105 XOR";
"2 1 1236 4105 9678 XOR";
"2 1 1236 4401 9679 XOR";
"2 1 9679 4105 4445 XOR";
"2 1 1235 4400 9675 XOR";
"2 1 4401 4105 9677 XOR";
"2 1 9678 9677 9676 AND";
"2 1 9676 4105 4104 XOR";
"2 1 9675 4104 4444 XOR";
"2 1 1235 4104 9674 XOR";
"2 1 4400 4104 9673 XOR";
"2 1 9674 9673 9672 AND";
"2 1 9672 4104 4103 XOR";
"2 1 1234 4103 9670 XOR";
"2 1 1234 4399 9671 XOR";
"2 1 9671 4103 4443 XOR";
"2 1 1278 4443 9506 XOR";
"2 1 4399 4103 9669 XOR";
"2 1 9670 9669 9668 AND";
"2 1 9668 4103 4102 XOR";
"2 1 4398 4102 9665 XOR";
"2 1 1233 4102 9666 XOR";
"2 1 1233 4398 9667 XOR";
"2 1 9667 4102 4442 XOR";
"2 1 1277 4442 9502 XOR";
"2 1 9666 9665 9664 AND";
"2 1 9664 4102 4101 XOR";
"2 1 4397 4101 9661 XOR";
"2 1 1232 4101 9662 XOR";
"2 1 9662 9661 9660 AND";
"2 1 1232 4397 9663 XOR";
"2 1 9663 4101 4441 XOR";
"2 1 9660 4101 4100 XOR";
"2 1 9659 4100 4440 XOR";
"2 1 1275 4440 9494 XOR";
"2 1 1231 4100 9658 XOR";
"2 1 4396 4100 9657 XOR";
"2 1 9658 9657 9656 AND";
"2 1 9656 4100 4099 XOR";
"2 1 1230 4099 9654 XOR";
"2 1 4395 4099 9653 XOR";
"2 1 9654 9653 9652 AND";
"2 1 9655 4099 4439 XOR";
"2 1 1274 4439 9490 XOR";
"2 1 9652 4099 4098 XOR";
"2 1 1229 4098 9650 XOR";
"2 1 4394 4098 9649 XOR";
"2 1 1229 4394 9651 XOR";
"2 1 9651 4098 4438 XOR";
"2 1 1228 4393 9647 XOR";
"2 1 9650 9649 9648 AND";
"2 1 9648 4098 4097 XOR";
"2 1 9647 4097 4437 XOR";
"2 1 4393 4097 9645 XOR";
"2 1 1228 4097 9646 XOR";
"2 1 9646 9645 9644 AND";
"2 1 9644 4097 4096 XOR";
"2 1 4392 4096 9641 XOR";
"2 1 1227 4096 9642 XOR";
"2 1 9642 9641 9640 AND";
"2 1 1227 4392 9643 XOR";
"2 1 9643 4096 4436 XOR";
"2 1 1271 4436 9478 XOR";
"2 1 9640 4096 4095 XOR";
"2 1 1226 4095 9638 XOR";
"2 1 4391 4095 9637 XOR";
"2 1 9638 9637 9636 AND";
"2 1 9636 4095 4094 XOR";
"2 1 9635 4094 4434 XOR";
"2 1 1225 4094 9634 XOR";
"2 1 9639 4095 4435 XOR";
"2 1 1270 4435 9474 XOR";
"2 1 4390 4094 9633 XOR";
"2 1 9634 9633 9632 AND";
"2 1 9632 4094 4093 XOR";
"2 1 4389 4093 9629 XOR";
"2 1 1224 4093 9630 XOR";
"2 1 9630 9629 9628 AND";
"2 1 9628 4093 4092 XOR";
"2 1 1223 4092 9626 XOR";
"2 1 9631 4093 4433 XOR";
"2 1 1268 4433 9466 XOR";
"2 1 1223 4388 9627 XOR";
"2 1 9627 4092 4432 XOR";
"2 1 1267 4432 9462 XOR";
"2 1 4388 4092 9625 XOR";
"2 1 9626 9625 9624 AND";
"2 1 9624 4092 4091 XOR";
"2 1 4387 4091 9621 XOR";
"2 1 1222 4091 9622 XOR";
"2 1 9622 9621 9620 AND";
"2 1 9620 4091 4090 XOR";
"2 1 1221 4090 9618 XOR";
"2 1 1221 4386 9619 XOR";
"2 1 9623 4091 4431 XOR";
"2 1 9619 4090 4430 XOR";
"2 1 4386 4090 9617 XOR";
"2 1 9618 9617 9616 AND";
"2 1 9616 4090 4089 XOR";
"2 1 4385 4089 9613 XOR";
"2 1 1220 4385 9615 XOR";
"2 1 9615 4089 4429 XOR";
"2 1 1264 4429 9450 XOR";
"2 1 1220 4089 9614 XOR";
"2 1 9614 9613 9612 AND";
"2 1 9612 4089 4088 XOR";
"2 1 4384 4088 9609 XOR";
"2 1 1219 4384 9611 XOR";
"2 1 9611 4088 4428 XOR";
"2 1 1263 4428 9446 XOR";
"2 1 1219 4088 9610 XOR";
"2 1 9610 9609 9608 AND";
"2 1 9608 4088 4087 XOR";
"2 1 1218 4087 9606 XOR";
"2 1 4383 4087 9605 XOR";
"2 1 1218 4383 9607 XOR";
"2 1 9607 4087 4427 XOR";
"2 1 1262 4427 9442 XOR";
"2 1 1217 4382 9603 XOR";
"2 1 9606 9605 9604 AND";
"2 1 9604 4087 4086 XOR";
"2 1 9603 4086 4426 XOR";
"2 1 1261 4426 9438 XOR";
"2 1 4465 4168 9592 XOR";
"2 1 9594 4168 4508 XOR";
"2 1 1343 4508 9433 XOR";
"2 1 4508 4210 9431 XOR";
"2 1 9432 9431 9430 AND";
"2 1 9593 9592 9591 AND";
"2 1 9591 4168 4167 XOR";
"2 1 4464 4167 9588 XOR";
"2 1 1299 4464 9590 XOR";
"2 1 9590 4167 4507 XOR";
"2 1 1342 4507 9429 XOR";
"2 1 1298 4463 9586 XOR";
"2 1 1299 4167 9589 XOR";
"2 1 9589 9588 9587 AND";
"2 1 9587 4167 4166 XOR";
"2 1 9586 4166 4506 XOR";
"2 1 1341 4506 9425 XOR";
"2 1 1298 4166 9585 XOR";
"2 1 4463 4166 9584 XOR";
"2 1 9585 9584 9583 AND";
"2 1 9583 4166 4165 XOR";
"2 1 1297 4462 9582 XOR";
"2 1 9582 4165 4505 XOR";
"2 1 1340 4505 9421 XOR";
"2 1 1297 4165 9581 XOR";
"2 1 4462 4165 9580 XOR";
"2 1 9581 9580 9579 AND";
"2 1 9579 4165 4164 XOR";
"2 1 1296 4164 9577 XOR";
"2 1 9578 4164 4504 XOR";
"2 1 1339 4504 9417 XOR";
"2 1 4461 4164 9576 XOR";
"2 1 9577 9576 9575 AND";
"2 1 9575 4164 4163 XOR";
"2 1 1295 4163 9573 XOR";
"2 1 4460 4163 9572 XOR";
"2 1 9573 9572 9571 AND";
"2 1 9571 4163 4162 XOR";
"2 1 4459 4162 9568 XOR";
"2 1 1295 4460 9574 XOR";
"2 1 9574 4163 4503 XOR";
"2 1 1338 4503 9413 XOR";
"2 1 1294 4162 9569 XOR";
"2 1 9569 9568 9567 AND";
"2 1 1294 4459 9570 XOR";
"2 1 9570 4162 4502 XOR";
"2 1 1337 4502 9409 XOR";
"2 1 9567 4162 4161 XOR";
"2 1 1293 4161 9565 XOR";
"2 1 9566 4161 4501 XOR";
"2 1 1336 4501 9405 XOR";
"2 1 4458 4161 9564 XOR";
"2 1 9565 9564 9563 AND";
"2 1 9563 4161 4160 XOR";
"2 1 1292 4160 9561 XOR";
"2 1 4457 4160 9560 XOR";
"2 1 9562 4160 4500 XOR";
"2 1 1335 4500 9401 XOR";
"2 1 9561 9560 9559 AND";
"2 1 9559 4160 4159 XOR";
"2 1 4456 4159 9556 XOR";
"2 1 1291 4456 9558 XOR";
"2 1 9558 4159 4499 XOR";
"2 1 1334 4499 9397 XOR";
"2 1 1290 4455 9554 XOR";
"2 1 1291 4159 9557 XOR";
"2 1 9557 9556 9555 AND";
"2 1 9555 4159 4158 XOR";
"2 1 9554 4158 4498 XOR";
"2 1 1333 4498 9393 XOR";
"2 1 1290 4158 9553 XOR";
"2 1 4455 4158 9552 XOR";
"2 1 9553 9552 9551 AND";
"2 1 9551 4158 4157 XOR";
"2 1 1289 4454 9550 XOR";
"2 1 9550 4157 4497 XOR";
"2 1 1332 4497 9389 XOR";
"2 1 1289 4157 9549 XOR";
"2 1 4454 4157 9548 XOR";
"2 1 9549 9548 9547 AND";
"2 1 9547 4157 4156 XOR";
"2 1 1288 4156 9545 XOR";
"2 1 9546 4156 4496 XOR";
"2 1 1331 4496 9385 XOR";
"2 1 4453 4156 9544 XOR";
"2 1 9545 9544 9543 AND";
"2 1 9543 4156 4155 XOR";
"2 1 1287 4155 9541 XOR";
"2 1 4452 4155 9540 XOR";
"2 1 9541 9540 9539 AND";
"2 1 9539 4155 4154 XOR";
"2 1 4451 4154 9536 XOR";
"2 1 1287 4452 9542 XOR";
"2 1 9542 4155 4495 XOR";
"2 1 1330 4495 9381 XOR";
"2 1 1286 4154 9537 XOR";
"2 1 9537 9536 9535 AND";
"2 1 1286 4451 9538 XOR";
"2 1 9538 4154 4494 XOR";
"2 1 1329 4494 9377 XOR";
"2 1 9535 4154 4153 XOR";
"2 1 1285 4153 9533 XOR";
"2 1 9534 4153 4493 XOR";
"2 1 1328 4493 9373 XOR";
"2 1 4450 4153 9532 XOR";
"2 1 9533 9532 9531 AND";
"2 1 9531 4153 4152 XOR";
"2 1 1284 4152 9529 XOR";
"2 1 4449 4152 9528 XOR";
"2 1 9530 4152 4492 XOR";
"2 1 1327 4492 9369 XOR";
"2 1 9529 9528 9527 AND";
"2 1 9527 4152 4151 XOR";
"2 1 4448 4151 9524 XOR";
"2 1 1283 4151 9525 XOR";
"2 1 1283 4448 9526 XOR";
"2 1 9526 4151 4491 XOR";
"2 1 9525 9524 9523 AND";
"2 1 9523 4151 4150 XOR";
"2 1 1282 4150 9521 XOR";
"2 1 9522 4150 4490 XOR";
"2 1 1325 4490 9361 XOR";
"2 1 4447 4150 9520 XOR";
"2 1 9521 9520 9519 AND";
"2 1 9519 4150 4149 XOR";
"2 1 4446 4149 9516 XOR";
"2 1 1281 4149 9517 XOR";
"2 1 9518 4149 4489 XOR";
"2 1 1324 4489 9357 XOR";
"2 1 9517 9516 9515 AND";
"2 1 9515 4149 4148 XOR";
"2 1 4445 4148 9512 XOR";
"2 1 1280 4445 9514 XOR";
"2 1 9514 4148 4488 XOR";
"2 1 1323 4488 9353 XOR";
"2 1 1280 4148 9513 XOR";
"2 1 9513 9512 9511 AND";
"2 1 9511 4148 4147 XOR";
"2 1 1279 4147 9509 XOR";
"2 1 1279 4444 9510 XOR";
"2 1 9510 4147 4487 XOR";
"2 1 1322 4487 9349 XOR";
"2 1 4444 4147 9508 XOR";
"2 1 9509 9508 9507 AND";
"2 1 9507 4147 4146 XOR";
"2 1 1278 4146 9505 XOR";
"2 1 4443 4146 9504 XOR";
"2 1 9506 4146 4486 XOR";
"2 1 1321 4486 9345 XOR";
"2 1 9505 9504 9503 AND";
"2 1 9503 4146 4145 XOR";
"2 1 4442 4145 9500 XOR";
"2 1 9502 4145 4485 XOR";
"2 1 1320 4485 9341 XOR";
"2 1 1277 4145 9501 XOR";
"2 1 9501 9500 9499 AND";
"2 1 9499 4145 4144 XOR";
"2 1 1276 4441 9498 XOR";
"2 1 9498 4144 4484 XOR";
"2 1 1319 4484 9337 XOR";
"2 1 1276 4144 9497 XOR";
"2 1 4441 4144 9496 XOR";
"2 1 9497 9496 9495 AND";
"2 1 9495 4144 4143 XOR";
"2 1 1275 4143 9493 XOR";
"2 1 9494 4143 4483 XOR";
"2 1 1318 4483 9333 XOR";
"2 1 4440 4143 9492 XOR";
"2 1 9493 9492 9491 AND";
"2 1 9491 4143 4142 XOR";
"2 1 4439 4142 9488 XOR";
"2 1 1274 4142 9489 XOR";
"2 1 9490 4142 4482 XOR";
"2 1 1317 4482 9329 XOR";
"2 1 9489 9488 9487 AND";
"2 1 9487 4142 4141 XOR";
"2 1 4438 4141 9484 XOR";
"2 1 1273 4438 9486 XOR";
"2 1 9486 4141 4481 XOR";
"2 1 1316 4481 9325 XOR";
"2 1 1273 4141 9485 XOR";
"2 1 9485 9484 9483 AND";
"2 1 9483 4141 4140 XOR";
"2 1 1272 4140 9481 XOR";
"2 1 1272 4437 9482 XOR";
"2 1 9482 4140 4480 XOR";
"2 1 1315 4480 9321 XOR";
"2 1 4437 4140 9480 XOR";
"2 1 9481 9480 9479 AND";
"2 1 9479 4140 4139 XOR";
"2 1 4436 4139 9476 XOR";
"2 1 9478 4139 4479 XOR";
"2 1 1271 4139 9477 XOR";
"2 1 1314 4479 9317 XOR";
"2 1 9477 9476 9475 AND";
"2 1 9475 4139 4138 XOR";
"2 1 4435 4138 9472 XOR";
"2 1 9474 4138 4478 XOR";
"2 1 1313 4478 9313 XOR";
"2 1 1270 4138 9473 XOR";
"2 1 9473 9472 9471 AND";
"2 1 9471 4138 4137 XOR";
"2 1 1269 4434 9470 XOR";
"2 1 9470 4137 4477 XOR";
"2 1 1312 4477 9309 XOR";
"2 1 1269 4137 9469 XOR";
"2 1 4434 4137 9468 XOR";
"2 1 9469 9468 9467 AND";
"2 1 9467 4137 4136 XOR";
"2 1 1268 4136 9465 XOR";
"2 1 9466 4136 4476 XOR";
"2 1 1311 4476 9305 XOR";
"2 1 4433 4136 9464 XOR";
"2 1 9465 9464 9463 AND";
"2 1 9463 4136 4135 XOR";
"2 1 1267 4135 9461 XOR";
"2 1 4432 4135 9460 XOR";
"2 1 9462 4135 4475 XOR";
"2 1 1310 4475 9301 XOR";
"2 1 9461 9460 9459 AND";
"2 1 9459 4135 4134 XOR";
"2 1 4431 4134 9456 XOR";
"2 1 1266 4431 9458 XOR";
"2 1 9458 4134 4474 XOR";
"2 1 1309 4474 9297 XOR";
"2 1 1266 4134 9457 XOR";
"2 1 9457 9456 9455 AND";
"2 1 9455 4134 4133 XOR";
"2 1 1265 4133 9453 XOR";
"2 1 1265 4430 9454 XOR";
"2 1 9454 4133 4473 XOR";
"2 1 1308 4473 9293 XOR";
"2 1 4430 4133 9452 XOR";
"2 1 9453 9452 9451 AND";
"2 1 9451 4133 4132 XOR";
"2 1 4429 4132 9448 XOR";
"2 1 9450 4132 4472 XOR";
"2 1 1264 4132 9449 XOR";
"2 1 1307 4472 9289 XOR";
"2 1 9449 9448 9447 AND";
"2 1 9447 4132 4131 XOR";
"2 1 4428 4131 9444 XOR";
"2 1 9446 4131 4471 XOR";
"2 1 1306 4471 9285 XOR";
"2 1 1263 4131 9445 XOR";
"2 1 9445 9444 9443 AND";
"2 1 9443 4131 4130 XOR";
"2 1 4427 4130 9440 XOR";
"2 1 1262 4130 9441 XOR";
"2 1 9441 9440 9439 AND";
"2 1 9442 4130 4470 XOR";
"2 1 1305 4470 9281 XOR";
"2 1 9439 4130 4129 XOR";
"2 1 9438 4129 4469 XOR";
"2 1 1304 4469 9277 XOR";
"2 1 9433 4210 4550 XOR";
"2 1 4550 4251 9274 XOR";
"2 1 1385 4550 9276 XOR";
"2 1 9276 4251 4591 XOR";
"2 1 1426 4591 13763 XOR";
"2 1 1426 4591 4290 AND";
"2 1 1425 4290 9118 XOR";
"2 1 9275 9274 9273 AND";
"2 1 9273 4251 4250 XOR";
"2 1 1384 4250 9271 XOR";
"2 1 9430 4210 4209 XOR";
"2 1 4507 4209 9427 XOR";
"2 1 9429 4209 4549 XOR";
"2 1 4549 4250 9270 XOR";
"2 1 1342 4209 9428 XOR";
"2 1 9428 9427 9426 AND";
"2 1 9426 4209 4208 XOR";
"2 1 4506 4208 9423 XOR";
"2 1 9425 4208 4548 XOR";
"2 1 1383 4548 9268 XOR";
"2 1 9271 9270 9269 AND";
"2 1 1384 4549 9272 XOR";
"2 1 9272 4250 4590 XOR";
"2 1 1425 4590 9119 XOR";
"2 1 9119 4290 4630 XOR";
"2 1 1465 4630 13764 XOR";
"2 1 1465 4630 4668 AND";
"2 1 4590 4290 9117 XOR";
"2 1 9118 9117 9116 AND";
"2 1 9116 4290 4289 XOR";
"2 1 1424 4289 9114 XOR";
"2 1 1464 4668 8965 XOR";
"2 1 9269 4250 4249 XOR";
"2 1 1383 4249 9267 XOR";
"2 1 4548 4249 9266 XOR";
"2 1 9268 4249 4589 XOR";
"2 1 1424 4589 9115 XOR";
"2 1 9115 4289 4629 XOR";
"2 1 4589 4289 9113 XOR";
"2 1 9114 9113 9112 AND";
"2 1 9112 4289 4288 XOR";
"2 1 1423 4288 9110 XOR";
"2 1 1464 4629 8966 XOR";
"2 1 8966 4668 4944 XOR";
"2 1 1503 4944 13765 XOR";
"2 1 1503 4944 4705 AND";
"2 1 4629 4668 8964 XOR";
"2 1 8965 8964 8963 AND";
"2 1 8963 4668 4667 XOR";
"2 1 1463 4667 8961 XOR";
"2 1 1502 4705 8816 XOR";
"2 1 9267 9266 9265 AND";
"2 1 9265 4249 4248 XOR";
"2 1 1382 4248 9263 XOR";
"2 1 1341 4208 9424 XOR";
"2 1 9424 9423 9422 AND";
"2 1 9422 4208 4207 XOR";
"2 1 1340 4207 9420 XOR";
"2 1 9421 4207 4547 XOR";
"2 1 4547 4248 9262 XOR";
"2 1 9263 9262 9261 AND";
"2 1 9261 4248 4247 XOR";
"2 1 1382 4547 9264 XOR";
"2 1 9264 4248 4588 XOR";
"2 1 1423 4588 9111 XOR";
"2 1 9111 4288 4628 XOR";
"2 1 4588 4288 9109 XOR";
"2 1 9110 9109 9108 AND";
"2 1 9108 4288 4287 XOR";
"2 1 1422 4287 9106 XOR";
"2 1 1463 4628 8962 XOR";
"2 1 8962 4667 4943 XOR";
"2 1 4628 4667 8960 XOR";
"2 1 8961 8960 8959 AND";
"2 1 8959 4667 4666 XOR";
"2 1 1462 4666 8957 XOR";
"2 1 4943 4705 8815 XOR";
"2 1 1502 4943 8817 XOR";
"2 1 8817 4705 4981 XOR";
"2 1 1540 4981 13766 XOR";
"2 1 1540 4981 4741 AND";
"2 1 8816 8815 8814 AND";
"2 1 8814 4705 4704 XOR";
"2 1 1501 4704 8812 XOR";
"2 1 1539 4741 8671 XOR";
"2 1 1381 4247 9259 XOR";
"2 1 4505 4207 9419 XOR";
"2 1 9420 9419 9418 AND";
"2 1 9418 4207 4206 XOR";
"2 1 9417 4206 4546 XOR";
"2 1 1339 4206 9416 XOR";
"2 1 4504 4206 9415 XOR";
"2 1 9416 9415 9414 AND";
"2 1 9414 4206 4205 XOR";
"2 1 9413 4205 4545 XOR";
"2 1 1338 4205 9412 XOR";
"2 1 4503 4205 9411 XOR";
"2 1 9412 9411 9410 AND";
"2 1 9410 4205 4204 XOR";
"2 1 9409 4204 4544 XOR";
"2 1 4502 4204 9407 XOR";
"2 1 1337 4204 9408 XOR";
"2 1 9408 9407 9406 AND";
"2 1 9406 4204 4203 XOR";
"2 1 1336 4203 9404 XOR";
"2 1 4501 4203 9403 XOR";
"2 1 9405 4203 4543 XOR";
"2 1 9404 9403 9402 AND";
"2 1 9402 4203 4202 XOR";
"2 1 9401 4202 4542 XOR";
"2 1 1377 4542 9244 XOR";
"2 1 4500 4202 9399 XOR";
"2 1 1335 4202 9400 XOR";
"2 1 9400 9399 9398 AND";
"2 1 9398 4202 4201 XOR";
"2 1 9397 4201 4541 XOR";
"2 1 1334 4201 9396 XOR";
"2 1 4499 4201 9395 XOR";
"2 1 9396 9395 9394 AND";
"2 1 9394 4201 4200 XOR";
"2 1 9393 4200 4540 XOR";
"2 1 1375 4540 9236 XOR";
"2 1 4498 4200 9391 XOR";
"2 1 1333 4200 9392 XOR";
"2 1 9392 9391 9390 AND";
"2 1 9390 4200 4199 XOR";
"2 1 9389 4199 4539 XOR";
"2 1 1374 4539 9232 XOR";
"2 1 4497 4199 9387 XOR";
"2 1 1332 4199 9388 XOR";
"2 1 4546 4247 9258 XOR";
"2 1 9259 9258 9257 AND";
"2 1 9257 4247 4246 XOR";
"2 1 1381 4546 9260 XOR";
"2 1 9260 4247 4587 XOR";
"2 1 1422 4587 9107 XOR";
"2 1 9107 4287 4627 XOR";
"2 1 4587 4287 9105 XOR";
"2 1 9106 9105 9104 AND";
"2 1 9104 4287 4286 XOR";
"2 1 1421 4286 9102 XOR";
"2 1 1462 4627 8958 XOR";
"2 1 8958 4666 4942 XOR";
"2 1 4627 4666 8956 XOR";
"2 1 8957 8956 8955 AND";
"2 1 8955 4666 4665 XOR";
"2 1 1461 4665 8953 XOR";
"2 1 4942 4704 8811 XOR";
"2 1 1501 4942 8813 XOR";
"2 1 8813 4704 4980 XOR";
"2 1 8812 8811 8810 AND";
"2 1 8810 4704 4703 XOR";
"2 1 1500 4703 8808 XOR";
"2 1 1539 4980 8672 XOR";
"2 1 8672 4741 5017 XOR";
"2 1 1576 5017 13767 XOR";
"2 1 1576 5017 4776 AND";
"2 1 4980 4741 8670 XOR";
"2 1 8671 8670 8669 AND";
"2 1 8669 4741 4740 XOR";
"2 1 1538 4740 8667 XOR";
"2 1 1575 4776 8530 XOR";
"2 1 1380 4246 9255 XOR";
"2 1 1380 4545 9256 XOR";
"2 1 9256 4246 4586 XOR";
"2 1 1421 4586 9103 XOR";
"2 1 9103 4286 4626 XOR";
"2 1 4586 4286 9101 XOR";
"2 1 9102 9101 9100 AND";
"2 1 9100 4286 4285 XOR";
"2 1 1420 4285 9098 XOR";
"2 1 1461 4626 8954 XOR";
"2 1 8954 4665 4941 XOR";
"2 1 4626 4665 8952 XOR";
"2 1 8953 8952 8951 AND";
"2 1 8951 4665 4664 XOR";
"2 1 1460 4664 8949 XOR";
"2 1 4941 4703 8807 XOR";
"2 1 1500 4941 8809 XOR";
"2 1 8809 4703 4979 XOR";
"2 1 8808 8807 8806 AND";
"2 1 8806 4703 4702 XOR";
"2 1 1499 4702 8804 XOR";
"2 1 1538 4979 8668 XOR";
"2 1 8668 4740 5016 XOR";
"2 1 4979 4740 8666 XOR";
"2 1 8667 8666 8665 AND";
"2 1 8665 4740 4739 XOR";
"2 1 1537 4739 8663 XOR";
"2 1 1575 5016 8531 XOR";
"2 1 8531 4776 5052 XOR";
"2 1 1611 5052 13768 XOR";
"2 1 1611 5052 4810 AND";
"2 1 5016 4776 8529 XOR";
"2 1 8530 8529 8528 AND";
"2 1 8528 4776 4775 XOR";
"2 1 1574 4775 8526 XOR";
"2 1 1610 4810 8393 XOR";
"2 1 4545 4246 9254 XOR";
"2 1 9255 9254 9253 AND";
"2 1 9253 4246 4245 XOR";
"2 1 1379 4245 9251 XOR";
"2 1 4544 4245 9250 XOR";
"2 1 9251 9250 9249 AND";
"2 1 1379 4544 9252 XOR";
"2 1 9252 4245 4585 XOR";
"2 1 1420 4585 9099 XOR";
"2 1 9099 4285 4625 XOR";
"2 1 4585 4285 9097 XOR";
"2 1 9098 9097 9096 AND";
"2 1 9096 4285 4284 XOR";
"2 1 1419 4284 9094 XOR";
"2 1 1460 4625 8950 XOR";
"2 1 8950 4664 4940 XOR";
"2 1 4625 4664 8948 XOR";
"2 1 8949 8948 8947 AND";
"2 1 8947 4664 4663 XOR";
"2 1 1459 4663 8945 XOR";
"2 1 4940 4702 8803 XOR";
"2 1 1499 4940 8805 XOR";
"2 1 8805 4702 4978 XOR";
"2 1 8804 8803 8802 AND";
"2 1 8802 4702 4701 XOR";
"2 1 1498 4701 8800 XOR";
"2 1 1537 4978 8664 XOR";
"2 1 8664 4739 5015 XOR";
"2 1 4978 4739 8662 XOR";
"2 1 8663 8662 8661 AND";
"2 1 8661 4739 4738 XOR";
"2 1 1536 4738 8659 XOR";
"2 1 1574 5015 8527 XOR";
"2 1 8527 4775 5051 XOR";
"2 1 5015 4775 8525 XOR";
"2 1 8526 8525 8524 AND";
"2 1 8524 4775 4774 XOR";
"2 1 1573 4774 8522 XOR";
"2 1 5051 4810 8392 XOR";
"2 1 1610 5051 8394 XOR";
"2 1 8394 4810 5086 XOR";
"2 1 1645 5086 13769 XOR";
"2 1 1645 5086 4843 AND";
"2 1 1644 4843 8260 XOR";
"2 1 8393 8392 8391 AND";
"2 1 8391 4810 4809 XOR";
"2 1 1609 4809 8389 XOR";
"2 1 9249 4245 4244 XOR";
"2 1 4543 4244 9246 XOR";
"2 1 1378 4244 9247 XOR";
"2 1 1378 4543 9248 XOR";
"2 1 9248 4244 4584 XOR";
"2 1 1419 4584 9095 XOR";
"2 1 9095 4284 4624 XOR";
"2 1 4584 4284 9093 XOR";
"2 1 9094 9093 9092 AND";
"2 1 9092 4284 4283 XOR";
"2 1 1418 4283 9090 XOR";
"2 1 1459 4624 8946 XOR";
"2 1 8946 4663 4939 XOR";
"2 1 4624 4663 8944 XOR";
"2 1 8945 8944 8943 AND";
"2 1 8943 4663 4662 XOR";
"2 1 1458 4662 8941 XOR";
"2 1 4939 4701 8799 XOR";
"2 1 1498 4939 8801 XOR";
"2 1 8801 4701 4977 XOR";
"2 1 8800 8799 8798 AND";
"2 1 8798 4701 4700 XOR";
"2 1 1497 4700 8796 XOR";
"2 1 1536 4977 8660 XOR";
"2 1 8660 4738 5014 XOR";
"2 1 4977 4738 8658 XOR";
"2 1 8659 8658 8657 AND";
"2 1 8657 4738 4737 XOR";
"2 1 1535 4737 8655 XOR";
"2 1 1573 5014 8523 XOR";
"2 1 8523 4774 5050 XOR";
"2 1 1609 5050 8390 XOR";
"2 1 5014 4774 8521 XOR";
"2 1 8522 8521 8520 AND";
"2 1 8520 4774 4773 XOR";
"2 1 1572 4773 8518 XOR";
"2 1 8390 4809 5085 XOR";
"2 1 1644 5085 8261 XOR";
"2 1 5050 4809 8388 XOR";
"2 1 8389 8388 8387 AND";
"2 1 8387 4809 4808 XOR";
"2 1 1608 4808 8385 XOR";
"2 1 8261 4843 5119 XOR";
"2 1 1678 5119 13770 XOR";
"2 1 1678 5119 4875 AND";
"2 1 1677 4875 8131 XOR";
"2 1 5085 4843 8259 XOR";
"2 1 8260 8259 8258 AND";
"2 1 8258 4843 4842 XOR";
"2 1 1643 4842 8256 XOR";
"2 1 9247 9246 9245 AND";
"2 1 9245 4244 4243 XOR";
"2 1 9244 4243 4583 XOR";
"2 1 1377 4243 9243 XOR";
"2 1 4542 4243 9242 XOR";
"2 1 9243 9242 9241 AND";
"2 1 9241 4243 4242 XOR";
"2 1 1418 4583 9091 XOR";
"2 1 9091 4283 4623 XOR";
"2 1 4583 4283 9089 XOR";
"2 1 9090 9089 9088 AND";
"2 1 9088 4283 4282 XOR";
"2 1 1417 4282 9086 XOR";
"2 1 1458 4623 8942 XOR";
"2 1 8942 4662 4938 XOR";
"2 1 4623 4662 8940 XOR";
"2 1 8941 8940 8939 AND";
"2 1 8939 4662 4661 XOR";
"2 1 1457 4661 8937 XOR";
"2 1 1497 4938 8797 XOR";
"2 1 8797 4700 4976 XOR";
"2 1 4938 4700 8795 XOR";
"2 1 8796 8795 8794 AND";
"2 1 8794 4700 4699 XOR";
"2 1 1496 4699 8792 XOR";
"2 1 1535 4976 8656 XOR";
"2 1 8656 4737 5013 XOR";
"2 1 4976 4737 8654 XOR";
"2 1 8655 8654 8653 AND";
"2 1 8653 4737 4736 XOR";
"2 1 1534 4736 8651 XOR";
"2 1 1572 5013 8519 XOR";
"2 1 8519 4773 5049 XOR";
"2 1 5013 4773 8517 XOR";
"2 1 8518 8517 8516 AND";
"2 1 8516 4773 4772 XOR";
"2 1 1571 4772 8514 XOR";
"2 1 5049 4808 8384 XOR";
"2 1 1608 5049 8386 XOR";
"2 1 8386 4808 5084 XOR";
"2 1 8385 8384 8383 AND";
"2 1 8383 4808 4807 XOR";
"2 1 1607 4807 8381 XOR";
"2 1 5084 4842 8255 XOR";
"2 1 1643 5084 8257 XOR";
"2 1 8257 4842 5118 XOR";
"2 1 1677 5118 8132 XOR";
"2 1 8132 4875 5151 XOR";
"2 1 1710 5151 13771 XOR";
"2 1 1710 5151 4906 AND";
"2 1 8256 8255 8254 AND";
"2 1 8254 4842 4841 XOR";
"2 1 1642 4841 8252 XOR";
"2 1 1376 4242 9239 XOR";
"2 1 1376 4541 9240 XOR";
"2 1 9240 4242 4582 XOR";
"2 1 1417 4582 9087 XOR";
"2 1 9087 4282 4622 XOR";
"2 1 4582 4282 9085 XOR";
"2 1 9086 9085 9084 AND";
"2 1 9084 4282 4281 XOR";
"2 1 1416 4281 9082 XOR";
"2 1 1457 4622 8938 XOR";
"2 1 8938 4661 4937 XOR";
"2 1 4622 4661 8936 XOR";
"2 1 8937 8936 8935 AND";
"2 1 8935 4661 4660 XOR";
"2 1 1456 4660 8933 XOR";
"2 1 1496 4937 8793 XOR";
"2 1 8793 4699 4975 XOR";
"2 1 4937 4699 8791 XOR";
"2 1 8792 8791 8790 AND";
"2 1 8790 4699 4698 XOR";
"2 1 1495 4698 8788 XOR";
"2 1 1534 4975 8652 XOR";
"2 1 8652 4736 5012 XOR";
"2 1 4975 4736 8650 XOR";
"2 1 8651 8650 8649 AND";
"2 1 8649 4736 4735 XOR";
"2 1 1533 4735 8647 XOR";
"2 1 1571 5012 8515 XOR";
"2 1 8515 4772 5048 XOR";
"2 1 5012 4772 8513 XOR";
"2 1 8514 8513 8512 AND";
"2 1 8512 4772 4771 XOR";
"2 1 1570 4771 8510 XOR";
"2 1 1607 5048 8382 XOR";
"2 1 8382 4807 5083 XOR";
"2 1 5048 4807 8380 XOR";
"2 1 8381 8380 8379 AND";
"2 1 8379 4807 4806 XOR";
"2 1 1606 4806 8377 XOR";
"2 1 1642 5083 8253 XOR";
"2 1 8253 4841 5117 XOR";
"2 1 5083 4841 8251 XOR";
"2 1 8252 8251 8250 AND";
"2 1 8250 4841 4840 XOR";
"2 1 1641 4840 8248 XOR";
"2 1 5118 4875 8130 XOR";
"2 1 8131 8130 8129 AND";
"2 1 8129 4875 4874 XOR";
"2 1 5117 4874 8126 XOR";
"2 1 1676 5117 8128 XOR";
"2 1 8128 4874 5150 XOR";
"2 1 1709 5150 8007 XOR";
"2 1 5150 4906 8005 XOR";
"2 1 1676 4874 8127 XOR";
"2 1 8127 8126 8125 AND";
"2 1 8125 4874 4873 XOR";
"2 1 1675 4873 8123 XOR";
"2 1 8007 4906 5182 XOR";
"2 1 1741 5182 13772 XOR";
"2 1 1741 5182 5212 AND";
"2 1 1740 5212 7885 XOR";
"2 1 1709 4906 8006 XOR";
"2 1 8006 8005 8004 AND";
"2 1 8004 4906 4905 XOR";
"2 1 1708 4905 8002 XOR";
"2 1 9388 9387 9386 AND";
"2 1 9386 4199 4198 XOR";
"2 1 9385 4198 4538 XOR";
"2 1 1373 4538 9228 XOR";
"2 1 1331 4198 9384 XOR";
"2 1 4496 4198 9383 XOR";
"2 1 9384 9383 9382 AND";
"2 1 9382 4198 4197 XOR";
"2 1 9381 4197 4537 XOR";
"2 1 1372 4537 9224 XOR";
"2 1 4495 4197 9379 XOR";
"2 1 1330 4197 9380 XOR";
"2 1 9380 9379 9378 AND";
"2 1 9378 4197 4196 XOR";
"2 1 9377 4196 4536 XOR";
"2 1 1371 4536 9220 XOR";
"2 1 1329 4196 9376 XOR";
"2 1 4494 4196 9375 XOR";
"2 1 9376 9375 9374 AND";
"2 1 9374 4196 4195 XOR";
"2 1 9373 4195 4535 XOR";
"2 1 1370 4535 9216 XOR";
"2 1 4493 4195 9371 XOR";
"2 1 1328 4195 9372 XOR";
"2 1 9372 9371 9370 AND";
"2 1 9370 4195 4194 XOR";
"2 1 9369 4194 4534 XOR";
"2 1 1369 4534 9212 XOR";
"2 1 1327 4194 9368 XOR";
"2 1 4492 4194 9367 XOR";
"2 1 9368 9367 9366 AND";
"2 1 9366 4194 4193 XOR";
"2 1 4491 4193 9363 XOR";
"2 1 1326 4193 9364 XOR";
"2 1 9364 9363 9362 AND";
"2 1 9362 4193 4192 XOR";
"2 1 9361 4192 4532 XOR";
"2 1 1367 4532 9204 XOR";
"2 1 1325 4192 9360 XOR";
"2 1 4490 4192 9359 XOR";
"2 1 9360 9359 9358 AND";
"2 1 9358 4192 4191 XOR";
"2 1 9357 4191 4531 XOR";
"2 1 1366 4531 9200 XOR";
"2 1 4489 4191 9355 XOR";
"2 1 1324 4191 9356 XOR";
"2 1 9356 9355 9354 AND";
"2 1 9354 4191 4190 XOR";
"2 1 9353 4190 4530 XOR";
"2 1 1365 4530 9196 XOR";
"2 1 1323 4190 9352 XOR";
"2 1 4488 4190 9351 XOR";
"2 1 9352 9351 9350 AND";
"2 1 9350 4190 4189 XOR";
"2 1 9349 4189 4529 XOR";
"2 1 1364 4529 9192 XOR";
"2 1 4487 4189 9347 XOR";
"2 1 1322 4189 9348 XOR";
"2 1 9348 9347 9346 AND";
"2 1 9346 4189 4188 XOR";
"2 1 9345 4188 4528 XOR";
"2 1 1363 4528 9188 XOR";
"2 1 1321 4188 9344 XOR";
"2 1 4486 4188 9343 XOR";
"2 1 9344 9343 9342 AND";
"2 1 9342 4188 4187 XOR";
"2 1 9341 4187 4527 XOR";
"2 1 1362 4527 9184 XOR";
"2 1 4485 4187 9339 XOR";
"2 1 1320 4187 9340 XOR";
"2 1 9340 9339 9338 AND";
"2 1 9338 4187 4186 XOR";
"2 1 4484 4186 9335 XOR";
"2 1 9337 4186 4526 XOR";
"2 1 1361 4526 9180 XOR";
"2 1 1319 4186 9336 XOR";
"2 1 9336 9335 9334 AND";
"2 1 9334 4186 4185 XOR";
"2 1 9333 4185 4525 XOR";
"2 1 1360 4525 9176 XOR";
"2 1 1318 4185 9332 XOR";
"2 1 4483 4185 9331 XOR";
"2 1 9332 9331 9330 AND";
"2 1 9330 4185 4184 XOR";
"2 1 9329 4184 4524 XOR";
"2 1 1359 4524 9172 XOR";
"2 1 4482 4184 9327 XOR";
"2 1 1317 4184 9328 XOR";
"2 1 9328 9327 9326 AND";
"2 1 9326 4184 4183 XOR";
"2 1 9325 4183 4523 XOR";
"2 1 1358 4523 9168 XOR";
"2 1 1316 4183 9324 XOR";
"2 1 4481 4183 9323 XOR";
"2 1 9324 9323 9322 AND";
"2 1 9322 4183 4182 XOR";
"2 1 9321 4182 4522 XOR";
"2 1 1357 4522 9164 XOR";
"2 1 4480 4182 9319 XOR";
"2 1 1315 4182 9320 XOR";
"2 1 9320 9319 9318 AND";
"2 1 9318 4182 4181 XOR";
"2 1 9317 4181 4521 XOR";
"2 1 1356 4521 9160 XOR";
"2 1 4479 4181 9315 XOR";
"2 1 1314 4181 9316 XOR";
"2 1 9316 9315 9314 AND";
"2 1 9314 4181 4180 XOR";
"2 1 9313 4180 4520 XOR";
"2 1 1355 4520 9156 XOR";
"2 1 4478 4180 9311 XOR";
"2 1 1313 4180 9312 XOR";
"2 1 9312 9311 9310 AND";
"2 1 9310 4180 4179 XOR";
"2 1 4477 4179 9307 XOR";
"2 1 1312 4179 9308 XOR";
"2 1 9309 4179 4519 XOR";
"2 1 1354 4519 9152 XOR";
"2 1 9308 9307 9306 AND";
"2 1 9306 4179 4178 XOR";
"2 1 9305 4178 4518 XOR";
"2 1 1353 4518 9148 XOR";
"2 1 1311 4178 9304 XOR";
"2 1 4476 4178 9303 XOR";
"2 1 9304 9303 9302 AND";
"2 1 9302 4178 4177 XOR";
"2 1 9301 4177 4517 XOR";
"2 1 1352 4517 9144 XOR";
"2 1 1310 4177 9300 XOR";
"2 1 4475 4177 9299 XOR";
"2 1 9300 9299 9298 AND";
"2 1 9298 4177 4176 XOR";
"2 1 9297 4176 4516 XOR";
"2 1 1351 4516 9140 XOR";
"2 1 1309 4176 9296 XOR";
"2 1 4474 4176 9295 XOR";
"2 1 9296 9295 9294 AND";
"2 1 9294 4176 4175 XOR";
"2 1 1308 4175 9292 XOR";
"2 1 9293 4175 4515 XOR";
"2 1 1350 4515 9136 XOR";
"2 1 4473 4175 9291 XOR";
"2 1 9292 9291 9290 AND";
"2 1 9290 4175 4174 XOR";
"2 1 1307 4174 9288 XOR";
"2 1 4472 4174 9287 XOR";
"2 1 9288 9287 9286 AND";
"2 1 9289 4174 4514 XOR";
"2 1 1349 4514 9132 XOR";
"2 1 9286 4174 4173 XOR";
"2 1 9285 4173 4513 XOR";
"2 1 1348 4513 9128 XOR";
"2 1 1306 4173 9284 XOR";
"2 1 4471 4173 9283 XOR";
"2 1 9284 9283 9282 AND";
"2 1 9282 4173 4172 XOR";
"2 1 1305 4172 9280 XOR";
"2 1 9281 4172 4512 XOR";
"2 1 1347 4512 9124 XOR";
"2 1 4470 4172 9279 XOR";
"2 1 9280 9279 9278 AND";
"2 1 9278 4172 4171 XOR";
"2 1 9277 4171 4511 XOR";
"2 1 1346 4511 9120 XOR";
"2 1 1326 4491 9365 XOR";
"2 1 9365 4193 4533 XOR";
"2 1 1368 4533 9208 XOR";
"2 1 4541 4242 9238 XOR";
"2 1 9239 9238 9237 AND";
"2 1 9237 4242 4241 XOR";
"2 1 9236 4241 4581 XOR";
"2 1 1375 4241 9235 XOR";
"2 1 4540 4241 9234 XOR";
"2 1 9235 9234 9233 AND";
"2 1 9233 4241 4240 XOR";
"2 1 9232 4240 4580 XOR";
"2 1 1374 4240 9231 XOR";
"2 1 4539 4240 9230 XOR";
"2 1 9231 9230 9229 AND";
"2 1 9229 4240 4239 XOR";
"2 1 9228 4239 4579 XOR";
"2 1 1373 4239 9227 XOR";
"2 1 4538 4239 9226 XOR";
"2 1 9227 9226 9225 AND";
"2 1 9225 4239 4238 XOR";
"2 1 9224 4238 4578 XOR";
"2 1 4537 4238 9222 XOR";
"2 1 1372 4238 9223 XOR";
"2 1 9223 9222 9221 AND";
"2 1 9221 4238 4237 XOR";
"2 1 9220 4237 4577 XOR";
"2 1 4536 4237 9218 XOR";
"2 1 1371 4237 9219 XOR";
"2 1 9219 9218 9217 AND";
"2 1 9217 4237 4236 XOR";
"2 1 9216 4236 4576 XOR";
"2 1 1370 4236 9215 XOR";
"2 1 4535 4236 9214 XOR";
"2 1 9215 9214 9213 AND";
"2 1 9213 4236 4235 XOR";
"2 1 9212 4235 4575 XOR";
"2 1 1369 4235 9211 XOR";
"2 1 4534 4235 9210 XOR";
"2 1 9211 9210 9209 AND";
"2 1 9209 4235 4234 XOR";
"2 1 9208 4234 4574 XOR";
"2 1 1368 4234 9207 XOR";
"2 1 4533 4234 9206 XOR";
"2 1 9207 9206 9205 AND";
"2 1 9205 4234 4233 XOR";
"2 1 9204 4233 4573 XOR";
"2 1 4532 4233 9202 XOR";
"2 1 1367 4233 9203 XOR";
"2 1 9203 9202 9201 AND";
"2 1 9201 4233 4232 XOR";
"2 1 9200 4232 4572 XOR";
"2 1 4531 4232 9198 XOR";
"2 1 1366 4232 9199 XOR";
"2 1 9199 9198 9197 AND";
"2 1 9197 4232 4231 XOR";
"2 1 9196 4231 4571 XOR";
"2 1 1365 4231 9195 XOR";
"2 1 4530 4231 9194 XOR";
"2 1 9195 9194 9193 AND";
"2 1 9193 4231 4230 XOR";
"2 1 9192 4230 4570 XOR";
"2 1 1364 4230 9191 XOR";
"2 1 4529 4230 9190 XOR";
"2 1 9191 9190 9189 AND";
"2 1 9189 4230 4229 XOR";
"2 1 9188 4229 4569 XOR";
"2 1 1363 4229 9187 XOR";
"2 1 4528 4229 9186 XOR";
"2 1 9187 9186 9185 AND";
"2 1 9185 4229 4228 XOR";
"2 1 9184 4228 4568 XOR";
"2 1 1362 4228 9183 XOR";
"2 1 4527 4228 9182 XOR";
"2 1 9183 9182 9181 AND";
"2 1 9181 4228 4227 XOR";
"2 1 9180 4227 4567 XOR";
"2 1 1361 4227 9179 XOR";
"2 1 4526 4227 9178 XOR";
"2 1 9179 9178 9177 AND";
"2 1 9177 4227 4226 XOR";
"2 1 9176 4226 4566 XOR";
"2 1 1360 4226 9175 XOR";
"2 1 4525 4226 9174 XOR";
"2 1 9175 9174 9173 AND";
"2 1 9173 4226 4225 XOR";
"2 1 1359 4225 9171 XOR";
"2 1 9172 4225 4565 XOR";
"2 1 4524 4225 9170 XOR";
"2 1 9171 9170 9169 AND";
"2 1 9169 4225 4224 XOR";
"2 1 9168 4224 4564 XOR";
"2 1 1358 4224 9167 XOR";
"2 1 4523 4224 9166 XOR";
"2 1 9167 9166 9165 AND";
"2 1 9165 4224 4223 XOR";
"2 1 9164 4223 4563 XOR";
"2 1 4522 4223 9162 XOR";
"2 1 1357 4223 9163 XOR";
"2 1 9163 9162 9161 AND";
"2 1 9161 4223 4222 XOR";
"2 1 9160 4222 4562 XOR";
"2 1 4521 4222 9158 XOR";
"2 1 1356 4222 9159 XOR";
"2 1 9159 9158 9157 AND";
"2 1 9157 4222 4221 XOR";
"2 1 1355 4221 9155 XOR";
"2 1 9156 4221 4561 XOR";
"2 1 4520 4221 9154 XOR";
"2 1 9155 9154 9153 AND";
"2 1 9153 4221 4220 XOR";
"2 1 1354 4220 9151 XOR";
"2 1 9152 4220 4560 XOR";
"2 1 4519 4220 9150 XOR";
"2 1 9151 9150 9149 AND";
"2 1 9149 4220 4219 XOR";
"2 1 9148 4219 4559 XOR";
"2 1 1353 4219 9147 XOR";
"2 1 4518 4219 9146 XOR";
"2 1 9147 9146 9145 AND";
"2 1 9145 4219 4218 XOR";
"2 1 9144 4218 4558 XOR";
"2 1 4517 4218 9142 XOR";
"2 1 1352 4218 9143 XOR";
"2 1 9143 9142 9141 AND";
"2 1 9141 4218 4217 XOR";
"2 1 9140 4217 4557 XOR";
"2 1 4516 4217 9138 XOR";
"2 1 1351 4217 9139 XOR";
"2 1 9139 9138 9137 AND";
"2 1 9137 4217 4216 XOR";
"2 1 1350 4216 9135 XOR";
"2 1 9136 4216 4556 XOR";
"2 1 4515 4216 9134 XOR";
"2 1 9135 9134 9133 AND";
"2 1 9133 4216 4215 XOR";
"2 1 9132 4215 4555 XOR";
"2 1 1349 4215 9131 XOR";
"2 1 4514 4215 9130 XOR";
"2 1 9131 9130 9129 AND";
"2 1 9129 4215 4214 XOR";
"2 1 9128 4214 4554 XOR";
"2 1 1348 4214 9127 XOR";
"2 1 4513 4214 9126 XOR";
"2 1 9127 9126 9125 AND";
"2 1 9125 4214 4213 XOR";
"2 1 9124 4213 4553 XOR";
"2 1 4512 4213 9122 XOR";
"2 1 1347 4213 9123 XOR";
"2 1 9123 9122 9121 AND";
"2 1 9121 4213 4212 XOR";
"2 1 9120 4212 4552 XOR";
"2 1 1416 4581 9083 XOR";
"2 1 4581 4281 9081 XOR";
"2 1 9082 9081 9080 AND";
"2 1 9080 4281 4280 XOR";
"2 1 1415 4580 9079 XOR";
"2 1 9079 4280 4620 XOR";
"2 1 4580 4280 9077 XOR";
"2 1 1415 4280 9078 XOR";
"2 1 9078 9077 9076 AND";
"2 1 9076 4280 4279 XOR";
"2 1 1414 4579 9075 XOR";
"2 1 9075 4279 4619 XOR";
"2 1 1414 4279 9074 XOR";
"2 1 4579 4279 9073 XOR";
"2 1 9074 9073 9072 AND";
"2 1 9072 4279 4278 XOR";
"2 1 1413 4578 9071 XOR";
"2 1 9071 4278 4618 XOR";
"2 1 1413 4278 9070 XOR";
"2 1 4578 4278 9069 XOR";
"2 1 9070 9069 9068 AND";
"2 1 9068 4278 4277 XOR";
"2 1 1412 4577 9067 XOR";
"2 1 9067 4277 4617 XOR";
"2 1 1412 4277 9066 XOR";
"2 1 1411 4576 9063 XOR";
"2 1 4577 4277 9065 XOR";
"2 1 9066 9065 9064 AND";
"2 1 9064 4277 4276 XOR";
"2 1 9063 4276 4616 XOR";
"2 1 4576 4276 9061 XOR";
"2 1 1411 4276 9062 XOR";
"2 1 9062 9061 9060 AND";
"2 1 9060 4276 4275 XOR";
"2 1 1410 4575 9059 XOR";
"2 1 9059 4275 4615 XOR";
"2 1 4575 4275 9057 XOR";
"2 1 1410 4275 9058 XOR";
"2 1 9058 9057 9056 AND";
"2 1 9056 4275 4274 XOR";
"2 1 1409 4574 9055 XOR";
"2 1 9055 4274 4614 XOR";
"2 1 1409 4274 9054 XOR";
"2 1 4574 4274 9053 XOR";
"2 1 9054 9053 9052 AND";
"2 1 9052 4274 4273 XOR";
"2 1 1408 4573 9051 XOR";
"2 1 9051 4273 4613 XOR";
"2 1 1408 4273 9050 XOR";
"2 1 4573 4273 9049 XOR";
"2 1 9050 9049 9048 AND";
"2 1 9048 4273 4272 XOR";
"2 1 1407 4272 9046 XOR";
"2 1 1407 4572 9047 XOR";
"2 1 9047 4272 4612 XOR";
"2 1 4572 4272 9045 XOR";
"2 1 9046 9045 9044 AND";
"2 1 9044 4272 4271 XOR";
"2 1 1406 4571 9043 XOR";
"2 1 9043 4271 4611 XOR";
"2 1 1406 4271 9042 XOR";
"2 1 1405 4570 9039 XOR";
"2 1 4571 4271 9041 XOR";
"2 1 9042 9041 9040 AND";
"2 1 9040 4271 4270 XOR";
"2 1 9039 4270 4610 XOR";
"2 1 4570 4270 9037 XOR";
"2 1 1405 4270 9038 XOR";
"2 1 9038 9037 9036 AND";
"2 1 9036 4270 4269 XOR";
"2 1 1404 4569 9035 XOR";
"2 1 9035 4269 4609 XOR";
"2 1 4569 4269 9033 XOR";
"2 1 1404 4269 9034 XOR";
"2 1 9034 9033 9032 AND";
"2 1 9032 4269 4268 XOR";
"2 1 1403 4568 9031 XOR";
"2 1 9031 4268 4608 XOR";
"2 1 1403 4268 9030 XOR";
"2 1 4568 4268 9029 XOR";
"2 1 9030 9029 9028 AND";
"2 1 9028 4268 4267 XOR";
"2 1 1402 4567 9027 XOR";
"2 1 9027 4267 4607 XOR";
"2 1 1402 4267 9026 XOR";
"2 1 4567 4267 9025 XOR";
"2 1 9026 9025 9024 AND";
"2 1 9024 4267 4266 XOR";
"2 1 1401 4566 9023 XOR";
"2 1 9023 4266 4606 XOR";
"2 1 1401 4266 9022 XOR";
"2 1 1400 4565 9019 XOR";
"2 1 4566 4266 9021 XOR";
"2 1 9022 9021 9020 AND";
"2 1 9020 4266 4265 XOR";
"2 1 9019 4265 4605 XOR";
"2 1 4565 4265 9017 XOR";
"2 1 1400 4265 9018 XOR";
"2 1 9018 9017 9016 AND";
"2 1 9016 4265 4264 XOR";
"2 1 1399 4564 9015 XOR";
"2 1 9015 4264 4604 XOR";
"2 1 4564 4264 9013 XOR";
"2 1 1399 4264 9014 XOR";
"2 1 9014 9013 9012 AND";
"2 1 9012 4264 4263 XOR";
"2 1 1398 4563 9011 XOR";
"2 1 9011 4263 4603 XOR";
"2 1 1398 4263 9010 XOR";
"2 1 4563 4263 9009 XOR";
"2 1 9010 9009 9008 AND";
"2 1 9008 4263 4262 XOR";
"2 1 1397 4562 9007 XOR";
"2 1 9007 4262 4602 XOR";
"2 1 1397 4262 9006 XOR";
"2 1 4562 4262 9005 XOR";
"2 1 9006 9005 9004 AND";
"2 1 9004 4262 4261 XOR";
"2 1 1396 4561 9003 XOR";
"2 1 9003 4261 4601 XOR";
"2 1 1396 4261 9002 XOR";
"2 1 1395 4560 8999 XOR";
"2 1 4561 4261 9001 XOR";
"2 1 9002 9001 9000 AND";
"2 1 9000 4261 4260 XOR";
"2 1 8999 4260 4600 XOR";
"2 1 4560 4260 8997 XOR";
"2 1 1395 4260 8998 XOR";
"2 1 8998 8997 8996 AND";
"2 1 8996 4260 4259 XOR";
"2 1 1394 4559 8995 XOR";
"2 1 8995 4259 4599 XOR";
"2 1 4559 4259 8993 XOR";
"2 1 1394 4259 8994 XOR";
"2 1 8994 8993 8992 AND";
"2 1 8992 4259 4258 XOR";
"2 1 1393 4558 8991 XOR";
"2 1 8991 4258 4598 XOR";
"2 1 1393 4258 8990 XOR";
"2 1 4558 4258 8989 XOR";
"2 1 8990 8989 8988 AND";
"2 1 8988 4258 4257 XOR";
"2 1 1392 4557 8987 XOR";
"2 1 8987 4257 4597 XOR";
"2 1 1392 4257 8986 XOR";
"2 1 4557 4257 8985 XOR";
"2 1 8986 8985 8984 AND";
"2 1 8984 4257 4256 XOR";
"2 1 1391 4556 8983 XOR";
"2 1 8983 4256 4596 XOR";
"2 1 1391 4256 8982 XOR";
"2 1 1390 4555 8979 XOR";
"2 1 4556 4256 8981 XOR";
"2 1 8982 8981 8980 AND";
"2 1 8980 4256 4255 XOR";
"2 1 8979 4255 4595 XOR";
"2 1 4555 4255 8977 XOR";
"2 1 1390 4255 8978 XOR";
"2 1 8978 8977 8976 AND";
"2 1 8976 4255 4254 XOR";
"2 1 1389 4554 8975 XOR";
"2 1 8975 4254 4594 XOR";
"2 1 4554 4254 8973 XOR";
"2 1 1389 4254 8974 XOR";
"2 1 8974 8973 8972 AND";
"2 1 8972 4254 4253 XOR";
"2 1 1388 4553 8971 XOR";
"2 1 8971 4253 4593 XOR";
"2 1 1388 4253 8970 XOR";
"2 1 4553 4253 8969 XOR";
"2 1 8970 8969 8968 AND";
"2 1 8968 4253 4252 XOR";
"2 1 1387 4552 8967 XOR";
"2 1 8967 4252 4592 XOR";
"2 1 1455 4620 8930 XOR";
"2 1 1454 4619 8926 XOR";
"2 1 1453 4618 8922 XOR";
"2 1 1452 4617 8918 XOR";
"2 1 1451 4616 8914 XOR";
"2 1 1450 4615 8910 XOR";
"2 1 1449 4614 8906 XOR";
"2 1 1448 4613 8902 XOR";
"2 1 1447 4612 8898 XOR";
"2 1 1446 4611 8894 XOR";
"2 1 1445 4610 8890 XOR";
"2 1 1444 4609 8886 XOR";
"2 1 1443 4608 8882 XOR";
"2 1 1442 4607 8878 XOR";
"2 1 1441 4606 8874 XOR";
"2 1 1440 4605 8870 XOR";
"2 1 1439 4604 8866 XOR";
"2 1 1438 4603 8862 XOR";
"2 1 1437 4602 8858 XOR";
"2 1 1436 4601 8854 XOR";
"2 1 1435 4600 8850 XOR";
"2 1 1434 4599 8846 XOR";
"2 1 1433 4598 8842 XOR";
"2 1 1432 4597 8838 XOR";
"2 1 1431 4596 8834 XOR";
"2 1 1430 4595 8830 XOR";
"2 1 1429 4594 8826 XOR";
"2 1 1428 4593 8822 XOR";
"2 1 1427 4592 8818 XOR";
"2 1 9083 4281 4621 XOR";
"2 1 1456 4621 8934 XOR";
"2 1 8934 4660 4936 XOR";
"2 1 4621 4660 8932 XOR";
"2 1 8933 8932 8931 AND";
"2 1 8931 4660 4659 XOR";
"2 1 1455 4659 8929 XOR";
"2 1 8930 4659 4935 XOR";
"2 1 4620 4659 8928 XOR";
"2 1 8929 8928 8927 AND";
"2 1 8927 4659 4658 XOR";
"2 1 1454 4658 8925 XOR";
"2 1 8926 4658 4934 XOR";
"2 1 4619 4658 8924 XOR";
"2 1 8925 8924 8923 AND";
"2 1 8923 4658 4657 XOR";
"2 1 1453 4657 8921 XOR";
"2 1 8922 4657 4933 XOR";
"2 1 4618 4657 8920 XOR";
"2 1 8921 8920 8919 AND";
"2 1 8919 4657 4656 XOR";
"2 1 1452 4656 8917 XOR";
"2 1 8918 4656 4932 XOR";
"2 1 4617 4656 8916 XOR";
"2 1 8917 8916 8915 AND";
"2 1 8915 4656 4655 XOR";
"2 1 1451 4655 8913 XOR";
"2 1 8914 4655 4931 XOR";
"2 1 4616 4655 8912 XOR";
"2 1 8913 8912 8911 AND";
"2 1 8911 4655 4654 XOR";
"2 1 8910 4654 4930 XOR";
"2 1 1450 4654 8909 XOR";
"2 1 4615 4654 8908 XOR";
"2 1 8909 8908 8907 AND";
"2 1 8907 4654 4653 XOR";
"2 1 8906 4653 4929 XOR";
"2 1 1449 4653 8905 XOR";
"2 1 4614 4653 8904 XOR";
"2 1 8905 8904 8903 AND";
"2 1 8903 4653 4652 XOR";
"2 1 8902 4652 4928 XOR";
"2 1 1448 4652 8901 XOR";
"2 1 4613 4652 8900 XOR";
"2 1 8901 8900 8899 AND";
"2 1 8899 4652 4651 XOR";
"2 1 8898 4651 4927 XOR";
"2 1 1447 4651 8897 XOR";
"2 1 4612 4651 8896 XOR";
"2 1 8897 8896 8895 AND";
"2 1 8895 4651 4650 XOR";
"2 1 8894 4650 4926 XOR";
"2 1 1446 4650 8893 XOR";
"2 1 4611 4650 8892 XOR";
"2 1 8893 8892 8891 AND";
"2 1 8891 4650 4649 XOR";
"2 1 8890 4649 4925 XOR";
"2 1 1445 4649 8889 XOR";
"2 1 4610 4649 8888 XOR";
"2 1 8889 8888 8887 AND";
"2 1 8887 4649 4648 XOR";
"2 1 8886 4648 4924 XOR";
"2 1 1444 4648 8885 XOR";
"2 1 4609 4648 8884 XOR";
"2 1 8885 8884 8883 AND";
"2 1 8883 4648 4647 XOR";
"2 1 8882 4647 4923 XOR";
"2 1 1443 4647 8881 XOR";
"2 1 4608 4647 8880 XOR";
"2 1 8881 8880 8879 AND";
"2 1 8879 4647 4646 XOR";
"2 1 8878 4646 4922 XOR";
"2 1 1442 4646 8877 XOR";
"2 1 4607 4646 8876 XOR";
"2 1 8877 8876 8875 AND";
"2 1 8875 4646 4645 XOR";
"2 1 8874 4645 4921 XOR";
"2 1 1441 4645 8873 XOR";
"2 1 4606 4645 8872 XOR";
"2 1 8873 8872 8871 AND";
"2 1 8871 4645 4644 XOR";
"2 1 8870 4644 4920 XOR";
"2 1 1440 4644 8869 XOR";
"2 1 4605 4644 8868 XOR";
"2 1 8869 8868 8867 AND";
"2 1 8867 4644 4643 XOR";
"2 1 8866 4643 4919 XOR";
"2 1 1439 4643 8865 XOR";
"2 1 4604 4643 8864 XOR";
"2 1 8865 8864 8863 AND";
"2 1 8863 4643 4642 XOR";
"2 1 8862 4642 4918 XOR";
"2 1 1438 4642 8861 XOR";
"2 1 4603 4642 8860 XOR";
"2 1 8861 8860 8859 AND";
"2 1 8859 4642 4641 XOR";
"2 1 8858 4641 4917 XOR";
"2 1 1437 4641 8857 XOR";
"2 1 4602 4641 8856 XOR";
"2 1 8857 8856 8855 AND";
"2 1 8855 4641 4640 XOR";
"2 1 8854 4640 4916 XOR";
"2 1 1436 4640 8853 XOR";
"2 1 4601 4640 8852 XOR";
"2 1 8853 8852 8851 AND";
"2 1 8851 4640 4639 XOR";
"2 1 8850 4639 4915 XOR";
"2 1 1435 4639 8849 XOR";
"2 1 4600 4639 8848 XOR";
"2 1 8849 8848 8847 AND";
"2 1 8847 4639 4638 XOR";
"2 1 8846 4638 4914 XOR";
"2 1 1434 4638 8845 XOR";
"2 1 4599 4638 8844 XOR";
"2 1 8845 8844 8843 AND";
"2 1 8843 4638 4637 XOR";
"2 1 8842 4637 4913 XOR";
"2 1 1433 4637 8841 XOR";
"2 1 4598 4637 8840 XOR";
"2 1 8841 8840 8839 AND";
"2 1 8839 4637 4636 XOR";
"2 1 8838 4636 4912 XOR";
"2 1 1432 4636 8837 XOR";
"2 1 4597 4636 8836 XOR";
"2 1 8837 8836 8835 AND";
"2 1 8835 4636 4635 XOR";
"2 1 8834 4635 4911 XOR";
"2 1 1431 4635 8833 XOR";
"2 1 4596 4635 8832 XOR";
"2 1 8833 8832 8831 AND";
"2 1 8831 4635 4634 XOR";
"2 1 8830 4634 4910 XOR";
"2 1 1430 4634 8829 XOR";
"2 1 4595 4634 8828 XOR";
"2 1 8829 8828 8827 AND";
"2 1 8827 4634 4633 XOR";
"2 1 8826 4633 4909 XOR";
"2 1 1429 4633 8825 XOR";
"2 1 4594 4633 8824 XOR";
"2 1 8825 8824 8823 AND";
"2 1 8823 4633 4632 XOR";
"2 1 8822 4632 4908 XOR";
"2 1 1428 4632 8821 XOR";
"2 1 4593 4632 8820 XOR";
"2 1 8821 8820 8819 AND";
"2 1 8819 4632 4631 XOR";
"2 1 8818 4631 4907 XOR";
"2 1 1495 4936 8789 XOR";
"2 1 8789 4698 4974 XOR";
"2 1 1494 4935 8785 XOR";
"2 1 4936 4698 8787 XOR";
"2 1 8788 8787 8786 AND";
"2 1 8786 4698 4697 XOR";
"2 1 8785 4697 4973 XOR";
"2 1 4935 4697 8783 XOR";
"2 1 1493 4934 8781 XOR";
"2 1 1494 4697 8784 XOR";
"2 1 8784 8783 8782 AND";
"2 1 8782 4697 4696 XOR";
"2 1 8781 4696 4972 XOR";
"2 1 4934 4696 8779 XOR";
"2 1 1492 4933 8777 XOR";
"2 1 1493 4696 8780 XOR";
"2 1 8780 8779 8778 AND";
"2 1 8778 4696 4695 XOR";
"2 1 8777 4695 4971 XOR";
"2 1 4933 4695 8775 XOR";
"2 1 1491 4932 8773 XOR";
"2 1 1492 4695 8776 XOR";
"2 1 8776 8775 8774 AND";
"2 1 8774 4695 4694 XOR";
"2 1 8773 4694 4970 XOR";
"2 1 4932 4694 8771 XOR";
"2 1 1490 4931 8769 XOR";
"2 1 1491 4694 8772 XOR";
"2 1 8772 8771 8770 AND";
"2 1 8770 4694 4693 XOR";
"2 1 8769 4693 4969 XOR";
"2 1 4931 4693 8767 XOR";
"2 1 1489 4930 8765 XOR";
"2 1 1490 4693 8768 XOR";
"2 1 8768 8767 8766 AND";
"2 1 8766 4693 4692 XOR";
"2 1 8765 4692 4968 XOR";
"2 1 4930 4692 8763 XOR";
"2 1 1488 4929 8761 XOR";
"2 1 1489 4692 8764 XOR";
"2 1 8764 8763 8762 AND";
"2 1 8762 4692 4691 XOR";
"2 1 8761 4691 4967 XOR";
"2 1 4929 4691 8759 XOR";
"2 1 1487 4928 8757 XOR";
"2 1 1488 4691 8760 XOR";
"2 1 8760 8759 8758 AND";
"2 1 8758 4691 4690 XOR";
"2 1 8757 4690 4966 XOR";
"2 1 4928 4690 8755 XOR";
"2 1 1486 4927 8753 XOR";
"2 1 1487 4690 8756 XOR";
"2 1 8756 8755 8754 AND";
"2 1 8754 4690 4689 XOR";
"2 1 8753 4689 4965 XOR";
"2 1 4927 4689 8751 XOR";
"2 1 1485 4926 8749 XOR";
"2 1 1486 4689 8752 XOR";
"2 1 8752 8751 8750 AND";
"2 1 8750 4689 4688 XOR";
"2 1 8749 4688 4964 XOR";
"2 1 4926 4688 8747 XOR";
"2 1 1484 4925 8745 XOR";
"2 1 1485 4688 8748 XOR";
"2 1 8748 8747 8746 AND";
"2 1 8746 4688 4687 XOR";
"2 1 8745 4687 4963 XOR";
"2 1 4925 4687 8743 XOR";
"2 1 1483 4924 8741 XOR";
"2 1 1484 4687 8744 XOR";
"2 1 8744 8743 8742 AND";
"2 1 8742 4687 4686 XOR";
"2 1 8741 4686 4962 XOR";
"2 1 4924 4686 8739 XOR";
"2 1 1483 4686 8740 XOR";
"2 1 8740 8739 8738 AND";
"2 1 8738 4686 4685 XOR";
"2 1 4923 4685 8735 XOR";
"2 1 1482 4923 8737 XOR";
"2 1 8737 4685 4961 XOR";
"2 1 1481 4922 8733 XOR";
"2 1 1482 4685 8736 XOR";
"2 1 8736 8735 8734 AND";
"2 1 8734 4685 4684 XOR";
"2 1 8733 4684 4960 XOR";
"2 1 4922 4684 8731 XOR";
"2 1 1480 4921 8729 XOR";
"2 1 1481 4684 8732 XOR";
"2 1 8732 8731 8730 AND";
"2 1 8730 4684 4683 XOR";
"2 1 8729 4683 4959 XOR";
"2 1 4921 4683 8727 XOR";
"2 1 1479 4920 8725 XOR";
"2 1 1480 4683 8728 XOR";
"2 1 8728 8727 8726 AND";
"2 1 8726 4683 4682 XOR";
"2 1 8725 4682 4958 XOR";
"2 1 4920 4682 8723 XOR";
"2 1 1478 4919 8721 XOR";
"2 1 1479 4682 8724 XOR";
"2 1 8724 8723 8722 AND";
"2 1 8722 4682 4681 XOR";
"2 1 8721 4681 4957 XOR";
"2 1 4919 4681 8719 XOR";
"2 1 1477 4918 8717 XOR";
"2 1 1478 4681 8720 XOR";
"2 1 8720 8719 8718 AND";
"2 1 8718 4681 4680 XOR";
"2 1 8717 4680 4956 XOR";
"2 1 4918 4680 8715 XOR";
"2 1 1476 4917 8713 XOR";
"2 1 1477 4680 8716 XOR";
"2 1 8716 8715 8714 AND";
"2 1 8714 4680 4679 XOR";
"2 1 8713 4679 4955 XOR";
"2 1 4917 4679 8711 XOR";
"2 1 1475 4916 8709 XOR";
"2 1 1476 4679 8712 XOR";
"2 1 8712 8711 8710 AND";
"2 1 8710 4679 4678 XOR";
"2 1 8709 4678 4954 XOR";
"2 1 4916 4678 8707 XOR";
"2 1 1474 4915 8705 XOR";
"2 1 1475 4678 8708 XOR";
"2 1 8708 8707 8706 AND";
"2 1 8706 4678 4677 XOR";
"2 1 8705 4677 4953 XOR";
"2 1 4915 4677 8703 XOR";
"2 1 1473 4914 8701 XOR";
"2 1 1474 4677 8704 XOR";
"2 1 8704 8703 8702 AND";
"2 1 8702 4677 4676 XOR";
"2 1 8701 4676 4952 XOR";
"2 1 4914 4676 8699 XOR";
"2 1 1472 4913 8697 XOR";
"2 1 1473 4676 8700 XOR";
"2 1 8700 8699 8698 AND";
"2 1 8698 4676 4675 XOR";
"2 1 8697 4675 4951 XOR";
"2 1 4913 4675 8695 XOR";
"2 1 1471 4912 8693 XOR";
"2 1 1472 4675 8696 XOR";
"2 1 8696 8695 8694 AND";
"2 1 8694 4675 4674 XOR";
"2 1 8693 4674 4950 XOR";
"2 1 4912 4674 8691 XOR";
"2 1 1470 4911 8689 XOR";
"2 1 1471 4674 8692 XOR";
"2 1 8692 8691 8690 AND";
"2 1 8690 4674 4673 XOR";
"2 1 8689 4673 4949 XOR";
"2 1 4911 4673 8687 XOR";
"2 1 1469 4910 8685 XOR";
"2 1 1470 4673 8688 XOR";
"2 1 8688 8687 8686 AND";
"2 1 8686 4673 4672 XOR";
"2 1 8685 4672 4948 XOR";
"2 1 4910 4672 8683 XOR";
"2 1 1468 4909 8681 XOR";
"2 1 1469 4672 8684 XOR";
"2 1 8684 8683 8682 AND";
"2 1 8682 4672 4671 XOR";
"2 1 8681 4671 4947 XOR";
"2 1 1506 4947 8540 XOR";
"2 1 4909 4671 8679 XOR";
"2 1 1467 4908 8677 XOR";
"2 1 1468 4671 8680 XOR";
"2 1 8680 8679 8678 AND";
"2 1 8678 4671 4670 XOR";
"2 1 8677 4670 4946 XOR";
"2 1 4908 4670 8675 XOR";
"2 1 1466 4907 8673 XOR";
"2 1 1467 4670 8676 XOR";
"2 1 8676 8675 8674 AND";
"2 1 8674 4670 4669 XOR";
"2 1 8673 4669 4945 XOR";
"2 1 1533 4974 8648 XOR";
"2 1 8648 4735 5011 XOR";
"2 1 4974 4735 8646 XOR";
"2 1 8647 8646 8645 AND";
"2 1 8645 4735 4734 XOR";
"2 1 1532 4734 8643 XOR";
"2 1 1532 4973 8644 XOR";
"2 1 8644 4734 5010 XOR";
"2 1 4973 4734 8642 XOR";
"2 1 8643 8642 8641 AND";
"2 1 8641 4734 4733 XOR";
"2 1 4972 4733 8638 XOR";
"2 1 1530 4971 8636 XOR";
"2 1 1531 4972 8640 XOR";
"2 1 8640 4733 5009 XOR";
"2 1 1531 4733 8639 XOR";
"2 1 8639 8638 8637 AND";
"2 1 8637 4733 4732 XOR";
"2 1 4971 4732 8634 XOR";
"2 1 1529 4970 8632 XOR";
"2 1 8636 4732 5008 XOR";
"2 1 1530 4732 8635 XOR";
"2 1 8635 8634 8633 AND";
"2 1 8633 4732 4731 XOR";
"2 1 4970 4731 8630 XOR";
"2 1 1528 4969 8628 XOR";
"2 1 8632 4731 5007 XOR";
"2 1 1529 4731 8631 XOR";
"2 1 8631 8630 8629 AND";
"2 1 8629 4731 4730 XOR";
"2 1 4969 4730 8626 XOR";
"2 1 1527 4968 8624 XOR";
"2 1 8628 4730 5006 XOR";
"2 1 1528 4730 8627 XOR";
"2 1 8627 8626 8625 AND";
"2 1 8625 4730 4729 XOR";
"2 1 4968 4729 8622 XOR";
"2 1 1526 4967 8620 XOR";
"2 1 8624 4729 5005 XOR";
"2 1 1527 4729 8623 XOR";
"2 1 8623 8622 8621 AND";
"2 1 8621 4729 4728 XOR";
"2 1 4967 4728 8618 XOR";
"2 1 1525 4966 8616 XOR";
"2 1 8620 4728 5004 XOR";
"2 1 1526 4728 8619 XOR";
"2 1 8619 8618 8617 AND";
"2 1 8617 4728 4727 XOR";
"2 1 4966 4727 8614 XOR";
"2 1 1524 4965 8612 XOR";
"2 1 8616 4727 5003 XOR";
"2 1 1525 4727 8615 XOR";
"2 1 8615 8614 8613 AND";
"2 1 8613 4727 4726 XOR";
"2 1 4965 4726 8610 XOR";
"2 1 1523 4964 8608 XOR";
"2 1 8612 4726 5002 XOR";
"2 1 1524 4726 8611 XOR";
"2 1 8611 8610 8609 AND";
"2 1 8609 4726 4725 XOR";
"2 1 4964 4725 8606 XOR";
"2 1 1522 4963 8604 XOR";
"2 1 8608 4725 5001 XOR";
"2 1 1523 4725 8607 XOR";
"2 1 8607 8606 8605 AND";
"2 1 8605 4725 4724 XOR";
"2 1 8604 4724 5000 XOR";
"2 1 1559 5000 8467 XOR";
"2 1 1521 4962 8600 XOR";
"2 1 4963 4724 8602 XOR";
"2 1 1522 4724 8603 XOR";
"2 1 8603 8602 8601 AND";
"2 1 8601 4724 4723 XOR";
"2 1 8600 4723 4999 XOR";
"2 1 1520 4961 8596 XOR";
"2 1 4962 4723 8598 XOR";
"2 1 1521 4723 8599 XOR";
"2 1 8599 8598 8597 AND";
"2 1 8597 4723 4722 XOR";
"2 1 8596 4722 4998 XOR";
"2 1 1519 4960 8592 XOR";
"2 1 4961 4722 8594 XOR";
"2 1 1520 4722 8595 XOR";
"2 1 8595 8594 8593 AND";
"2 1 8593 4722 4721 XOR";
"2 1 8592 4721 4997 XOR";
"2 1 1518 4959 8588 XOR";
"2 1 4960 4721 8590 XOR";
"2 1 1519 4721 8591 XOR";
"2 1 8591 8590 8589 AND";
"2 1 8589 4721 4720 XOR";
"2 1 8588 4720 4996 XOR";
"2 1 1517 4958 8584 XOR";
"2 1 4959 4720 8586 XOR";
"2 1 1518 4720 8587 XOR";
"2 1 8587 8586 8585 AND";
"2 1 8585 4720 4719 XOR";
"2 1 8584 4719 4995 XOR";
"2 1 1516 4957 8580 XOR";
"2 1 4958 4719 8582 XOR";
"2 1 1517 4719 8583 XOR";
"2 1 8583 8582 8581 AND";
"2 1 8581 4719 4718 XOR";
"2 1 8580 4718 4994 XOR";
"2 1 1515 4956 8576 XOR";
"2 1 4957 4718 8578 XOR";
"2 1 1516 4718 8579 XOR";
"2 1 8579 8578 8577 AND";
"2 1 8577 4718 4717 XOR";
"2 1 8576 4717 4993 XOR";
"2 1 1514 4955 8572 XOR";
"2 1 4956 4717 8574 XOR";
"2 1 1515 4717 8575 XOR";
"2 1 8575 8574 8573 AND";
"2 1 8573 4717 4716 XOR";
"2 1 8572 4716 4992 XOR";
"2 1 1513 4954 8568 XOR";
"2 1 4955 4716 8570 XOR";
"2 1 1514 4716 8571 XOR";
"2 1 8571 8570 8569 AND";
"2 1 8569 4716 4715 XOR";
"2 1 8568 4715 4991 XOR";
"2 1 1512 4953 8564 XOR";
"2 1 4954 4715 8566 XOR";
"2 1 1513 4715 8567 XOR";
"2 1 8567 8566 8565 AND";
"2 1 8565 4715 4714 XOR";
"2 1 8564 4714 4990 XOR";
"2 1 1511 4952 8560 XOR";
"2 1 4953 4714 8562 XOR";
"2 1 1512 4714 8563 XOR";
"2 1 8563 8562 8561 AND";
"2 1 8561 4714 4713 XOR";
"2 1 8560 4713 4989 XOR";
"2 1 1510 4951 8556 XOR";
"2 1 4952 4713 8558 XOR";
"2 1 1511 4713 8559 XOR";
"2 1 8559 8558 8557 AND";
"2 1 8557 4713 4712 XOR";
"2 1 8556 4712 4988 XOR";
"2 1 1509 4950 8552 XOR";
"2 1 4951 4712 8554 XOR";
"2 1 1510 4712 8555 XOR";
"2 1 8555 8554 8553 AND";
"2 1 8553 4712 4711 XOR";
"2 1 8552 4711 4987 XOR";
"2 1 1508 4949 8548 XOR";
"2 1 4950 4711 8550 XOR";
"2 1 1509 4711 8551 XOR";
"2 1 8551 8550 8549 AND";
"2 1 8549 4711 4710 XOR";
"2 1 8548 4710 4986 XOR";
"2 1 1545 4986 8411 XOR";
"2 1 1507 4948 8544 XOR";
"2 1 4949 4710 8546 XOR";
"2 1 1508 4710 8547 XOR";
"2 1 8547 8546 8545 AND";
"2 1 8545 4710 4709 XOR";
"2 1 8544 4709 4985 XOR";
"2 1 4948 4709 8542 XOR";
"2 1 1507 4709 8543 XOR";
"2 1 8543 8542 8541 AND";
"2 1 8541 4709 4708 XOR";
"2 1 8540 4708 4984 XOR";
"2 1 1506 4708 8539 XOR";
"2 1 4947 4708 8538 XOR";
"2 1 8539 8538 8537 AND";
"2 1 8537 4708 4707 XOR";
"2 1 1505 4946 8536 XOR";
"2 1 8536 4707 4983 XOR";
"2 1 4946 4707 8534 XOR";
"2 1 1505 4707 8535 XOR";
"2 1 8535 8534 8533 AND";
"2 1 8533 4707 4706 XOR";
"2 1 1504 4945 8532 XOR";
"2 1 8532 4706 4982 XOR";
"2 1 1570 5011 8511 XOR";
"2 1 8511 4771 5047 XOR";
"2 1 5011 4771 8509 XOR";
"2 1 8510 8509 8508 AND";
"2 1 8508 4771 4770 XOR";
"2 1 1569 4770 8506 XOR";
"2 1 1569 5010 8507 XOR";
"2 1 8507 4770 5046 XOR";
"2 1 5010 4770 8505 XOR";
"2 1 8506 8505 8504 AND";
"2 1 8504 4770 4769 XOR";
"2 1 1568 4769 8502 XOR";
"2 1 1568 5009 8503 XOR";
"2 1 8503 4769 5045 XOR";
"2 1 5009 4769 8501 XOR";
"2 1 8502 8501 8500 AND";
"2 1 8500 4769 4768 XOR";
"2 1 1567 4768 8498 XOR";
"2 1 1567 5008 8499 XOR";
"2 1 8499 4768 5044 XOR";
"2 1 5008 4768 8497 XOR";
"2 1 8498 8497 8496 AND";
"2 1 8496 4768 4767 XOR";
"2 1 1566 4767 8494 XOR";
"2 1 1566 5007 8495 XOR";
"2 1 8495 4767 5043 XOR";
"2 1 5007 4767 8493 XOR";
"2 1 8494 8493 8492 AND";
"2 1 8492 4767 4766 XOR";
"2 1 1565 4766 8490 XOR";
"2 1 1565 5006 8491 XOR";
"2 1 8491 4766 5042 XOR";
"2 1 5006 4766 8489 XOR";
"2 1 8490 8489 8488 AND";
"2 1 8488 4766 4765 XOR";
"2 1 1564 5005 8487 XOR";
"2 1 8487 4765 5041 XOR";
"2 1 5005 4765 8485 XOR";
"2 1 1564 4765 8486 XOR";
"2 1 8486 8485 8484 AND";
"2 1 8484 4765 4764 XOR";
"2 1 1563 4764 8482 XOR";
"2 1 1563 5004 8483 XOR";
"2 1 8483 4764 5040 XOR";
"2 1 5004 4764 8481 XOR";
"2 1 8482 8481 8480 AND";
"2 1 8480 4764 4763 XOR";
"2 1 1562 4763 8478 XOR";
"2 1 1562 5003 8479 XOR";
"2 1 8479 4763 5039 XOR";
"2 1 1598 5039 8346 XOR";
"2 1 5003 4763 8477 XOR";
"2 1 8478 8477 8476 AND";
"2 1 8476 4763 4762 XOR";
"2 1 1561 4762 8474 XOR";
"2 1 1561 5002 8475 XOR";
"2 1 8475 4762 5038 XOR";
"2 1 1597 5038 8342 XOR";
"2 1 5002 4762 8473 XOR";
"2 1 8474 8473 8472 AND";
"2 1 8472 4762 4761 XOR";
"2 1 1560 4761 8470 XOR";
"2 1 1560 5001 8471 XOR";
"2 1 8471 4761 5037 XOR";
"2 1 5001 4761 8469 XOR";
"2 1 8470 8469 8468 AND";
"2 1 8468 4761 4760 XOR";
"2 1 1559 4760 8466 XOR";
"2 1 5000 4760 8465 XOR";
"2 1 8467 4760 5036 XOR";
"2 1 8466 8465 8464 AND";
"2 1 8464 4760 4759 XOR";
"2 1 1558 4759 8462 XOR";
"2 1 4999 4759 8461 XOR";
"2 1 1558 4999 8463 XOR";
"2 1 8463 4759 5035 XOR";
"2 1 8462 8461 8460 AND";
"2 1 8460 4759 4758 XOR";
"2 1 1557 4758 8458 XOR";
"2 1 1557 4998 8459 XOR";
"2 1 8459 4758 5034 XOR";
"2 1 1593 5034 8326 XOR";
"2 1 4998 4758 8457 XOR";
"2 1 8458 8457 8456 AND";
"2 1 8456 4758 4757 XOR";
"2 1 1556 4757 8454 XOR";
"2 1 1556 4997 8455 XOR";
"2 1 8455 4757 5033 XOR";
"2 1 4997 4757 8453 XOR";
"2 1 8454 8453 8452 AND";
"2 1 8452 4757 4756 XOR";
"2 1 1555 4756 8450 XOR";
"2 1 1555 4996 8451 XOR";
"2 1 8451 4756 5032 XOR";
"2 1 4996 4756 8449 XOR";
"2 1 8450 8449 8448 AND";
"2 1 8448 4756 4755 XOR";
"2 1 1554 4755 8446 XOR";
"2 1 1554 4995 8447 XOR";
"2 1 8447 4755 5031 XOR";
"2 1 4995 4755 8445 XOR";
"2 1 8446 8445 8444 AND";
"2 1 8444 4755 4754 XOR";
"2 1 4994 4754 8441 XOR";
"2 1 1552 4993 8439 XOR";
"2 1 1553 4994 8443 XOR";
"2 1 8443 4754 5030 XOR";
"2 1 1589 5030 8310 XOR";
"2 1 1553 4754 8442 XOR";
"2 1 8442 8441 8440 AND";
"2 1 8440 4754 4753 XOR";
"2 1 1552 4753 8438 XOR";
"2 1 8439 4753 5029 XOR";
"2 1 1551 4992 8435 XOR";
"2 1 4993 4753 8437 XOR";
"2 1 8438 8437 8436 AND";
"2 1 8436 4753 4752 XOR";
"2 1 8435 4752 5028 XOR";
"2 1 1587 5028 8302 XOR";
"2 1 1551 4752 8434 XOR";
"2 1 1550 4991 8431 XOR";
"2 1 4992 4752 8433 XOR";
"2 1 8434 8433 8432 AND";
"2 1 8432 4752 4751 XOR";
"2 1 1550 4751 8430 XOR";
"2 1 8431 4751 5027 XOR";
"2 1 1586 5027 8298 XOR";
"2 1 4991 4751 8429 XOR";
"2 1 8430 8429 8428 AND";
"2 1 8428 4751 4750 XOR";
"2 1 1549 4990 8427 XOR";
"2 1 8427 4750 5026 XOR";
"2 1 1585 5026 8294 XOR";
"2 1 1549 4750 8426 XOR";
"2 1 4990 4750 8425 XOR";
"2 1 8426 8425 8424 AND";
"2 1 8424 4750 4749 XOR";
"2 1 1548 4989 8423 XOR";
"2 1 8423 4749 5025 XOR";
"2 1 1548 4749 8422 XOR";
"2 1 4989 4749 8421 XOR";
"2 1 8422 8421 8420 AND";
"2 1 8420 4749 4748 XOR";
"2 1 1547 4988 8419 XOR";
"2 1 8419 4748 5024 XOR";
"2 1 1547 4748 8418 XOR";
"2 1 4988 4748 8417 XOR";
"2 1 8418 8417 8416 AND";
"2 1 8416 4748 4747 XOR";
"2 1 1546 4987 8415 XOR";
"2 1 8415 4747 5023 XOR";
"2 1 4987 4747 8413 XOR";
"2 1 1546 4747 8414 XOR";
"2 1 8414 8413 8412 AND";
"2 1 8412 4747 4746 XOR";
"2 1 1544 4985 8407 XOR";
"2 1 8411 4746 5022 XOR";
"2 1 1545 4746 8410 XOR";
"2 1 1543 4984 8403 XOR";
"2 1 4986 4746 8409 XOR";
"2 1 8410 8409 8408 AND";
"2 1 8408 4746 4745 XOR";
"2 1 8407 4745 5021 XOR";
"2 1 1544 4745 8406 XOR";
"2 1 1542 4983 8399 XOR";
"2 1 4985 4745 8405 XOR";
"2 1 8406 8405 8404 AND";
"2 1 8404 4745 4744 XOR";
"2 1 8403 4744 5020 XOR";
"2 1 1543 4744 8402 XOR";
"2 1 1541 4982 8395 XOR";
"2 1 4984 4744 8401 XOR";
"2 1 8402 8401 8400 AND";
"2 1 8400 4744 4743 XOR";
"2 1 8399 4743 5019 XOR";
"2 1 1542 4743 8398 XOR";
"2 1 4983 4743 8397 XOR";
"2 1 8398 8397 8396 AND";
"2 1 8396 4743 4742 XOR";
"2 1 8395 4742 5018 XOR";
"2 1 1605 5046 8374 XOR";
"2 1 1606 5047 8378 XOR";
"2 1 8378 4806 5082 XOR";
"2 1 5082 4840 8247 XOR";
"2 1 1604 5045 8370 XOR";
"2 1 5047 4806 8376 XOR";
"2 1 8377 8376 8375 AND";
"2 1 8375 4806 4805 XOR";
"2 1 8374 4805 5081 XOR";
"2 1 1605 4805 8373 XOR";
"2 1 1603 5044 8366 XOR";
"2 1 5046 4805 8372 XOR";
"2 1 8373 8372 8371 AND";
"2 1 8371 4805 4804 XOR";
"2 1 8370 4804 5080 XOR";
"2 1 1639 5080 8241 XOR";
"2 1 1604 4804 8369 XOR";
"2 1 5045 4804 8368 XOR";
"2 1 8369 8368 8367 AND";
"2 1 8367 4804 4803 XOR";
"2 1 5044 4803 8364 XOR";
"2 1 1603 4803 8365 XOR";
"2 1 8366 4803 5079 XOR";
"2 1 8365 8364 8363 AND";
"2 1 8363 4803 4802 XOR";
"2 1 5043 4802 8360 XOR";
"2 1 1602 5043 8362 XOR";
"2 1 8362 4802 5078 XOR";
"2 1 1601 5042 8358 XOR";
"2 1 1602 4802 8361 XOR";
"2 1 8361 8360 8359 AND";
"2 1 8359 4802 4801 XOR";
"2 1 5042 4801 8356 XOR";
"2 1 1601 4801 8357 XOR";
"2 1 8358 4801 5077 XOR";
"2 1 8357 8356 8355 AND";
"2 1 8355 4801 4800 XOR";
"2 1 1600 5041 8354 XOR";
"2 1 8354 4800 5076 XOR";
"2 1 5041 4800 8352 XOR";
"2 1 1600 4800 8353 XOR";
"2 1 8353 8352 8351 AND";
"2 1 8351 4800 4799 XOR";
"2 1 1599 4799 8349 XOR";
"2 1 1599 5040 8350 XOR";
"2 1 8350 4799 5075 XOR";
"2 1 1634 5075 8221 XOR";
"2 1 5040 4799 8348 XOR";
"2 1 8349 8348 8347 AND";
"2 1 8347 4799 4798 XOR";
"2 1 1598 4798 8345 XOR";
"2 1 8346 4798 5074 XOR";
"2 1 5039 4798 8344 XOR";
"2 1 8345 8344 8343 AND";
"2 1 8343 4798 4797 XOR";
"2 1 8342 4797 5073 XOR";
"2 1 1632 5073 8213 XOR";
"2 1 5038 4797 8340 XOR";
"2 1 1597 4797 8341 XOR";
"2 1 8341 8340 8339 AND";
"2 1 8339 4797 4796 XOR";
"2 1 5037 4796 8336 XOR";
"2 1 1596 5037 8338 XOR";
"2 1 8338 4796 5072 XOR";
"2 1 1631 5072 8209 XOR";
"2 1 1596 4796 8337 XOR";
"2 1 8337 8336 8335 AND";
"2 1 8335 4796 4795 XOR";
"2 1 1595 4795 8333 XOR";
"2 1 1595 5036 8334 XOR";
"2 1 8334 4795 5071 XOR";
"2 1 5036 4795 8332 XOR";
"2 1 8333 8332 8331 AND";
"2 1 8331 4795 4794 XOR";
"2 1 5035 4794 8328 XOR";
"2 1 1594 4794 8329 XOR";
"2 1 1594 5035 8330 XOR";
"2 1 8330 4794 5070 XOR";
"2 1 1629 5070 8201 XOR";
"2 1 8329 8328 8327 AND";
"2 1 8327 4794 4793 XOR";
"2 1 1593 4793 8325 XOR";
"2 1 8326 4793 5069 XOR";
"2 1 5034 4793 8324 XOR";
"2 1 8325 8324 8323 AND";
"2 1 8323 4793 4792 XOR";
"2 1 5033 4792 8320 XOR";
"2 1 1592 4792 8321 XOR";
"2 1 1592 5033 8322 XOR";
"2 1 8322 4792 5068 XOR";
"2 1 8321 8320 8319 AND";
"2 1 8319 4792 4791 XOR";
"2 1 1591 5032 8318 XOR";
"2 1 1590 5031 8314 XOR";
"2 1 8318 4791 5067 XOR";
"2 1 1626 5067 8189 XOR";
"2 1 1591 4791 8317 XOR";
"2 1 5032 4791 8316 XOR";
"2 1 8317 8316 8315 AND";
"2 1 8315 4791 4790 XOR";
"2 1 8314 4790 5066 XOR";
"2 1 1625 5066 8185 XOR";
"2 1 1590 4790 8313 XOR";
"2 1 5031 4790 8312 XOR";
"2 1 8313 8312 8311 AND";
"2 1 8311 4790 4789 XOR";
"2 1 1589 4789 8309 XOR";
"2 1 8310 4789 5065 XOR";
"2 1 1588 5029 8306 XOR";
"2 1 5030 4789 8308 XOR";
"2 1 8309 8308 8307 AND";
"2 1 8307 4789 4788 XOR";
"2 1 8306 4788 5064 XOR";
"2 1 1588 4788 8305 XOR";
"2 1 5029 4788 8304 XOR";
"2 1 8305 8304 8303 AND";
"2 1 8303 4788 4787 XOR";
"2 1 8302 4787 5063 XOR";
"2 1 1622 5063 8173 XOR";
"2 1 1587 4787 8301 XOR";
"2 1 5028 4787 8300 XOR";
"2 1 8301 8300 8299 AND";
"2 1 8299 4787 4786 XOR";
"2 1 8298 4786 5062 XOR";
"2 1 1586 4786 8297 XOR";
"2 1 5027 4786 8296 XOR";
"2 1 8297 8296 8295 AND";
"2 1 8295 4786 4785 XOR";
"2 1 1585 4785 8293 XOR";
"2 1 8294 4785 5061 XOR";
"2 1 1620 5061 8165 XOR";
"2 1 1584 5025 8290 XOR";
"2 1 5026 4785 8292 XOR";
"2 1 8293 8292 8291 AND";
"2 1 8291 4785 4784 XOR";
"2 1 8290 4784 5060 XOR";
"2 1 1619 5060 8161 XOR";
"2 1 5025 4784 8288 XOR";
"2 1 1584 4784 8289 XOR";
"2 1 8289 8288 8287 AND";
"2 1 8287 4784 4783 XOR";
"2 1 5024 4783 8284 XOR";
"2 1 1583 5024 8286 XOR";
"2 1 8286 4783 5059 XOR";
"2 1 1583 4783 8285 XOR";
"2 1 8285 8284 8283 AND";
"2 1 8283 4783 4782 XOR";
"2 1 1582 4782 8281 XOR";
"2 1 1582 5023 8282 XOR";
"2 1 8282 4782 5058 XOR";
"2 1 5023 4782 8280 XOR";
"2 1 8281 8280 8279 AND";
"2 1 8279 4782 4781 XOR";
"2 1 1581 4781 8277 XOR";
"2 1 1581 5022 8278 XOR";
"2 1 8278 4781 5057 XOR";
"2 1 1580 5021 8274 XOR";
"2 1 5022 4781 8276 XOR";
"2 1 8277 8276 8275 AND";
"2 1 8275 4781 4780 XOR";
"2 1 8274 4780 5056 XOR";
"2 1 1580 4780 8273 XOR";
"2 1 5021 4780 8272 XOR";
"2 1 8273 8272 8271 AND";
"2 1 8271 4780 4779 XOR";
"2 1 1579 5020 8270 XOR";
"2 1 8270 4779 5055 XOR";
"2 1 5020 4779 8268 XOR";
"2 1 1579 4779 8269 XOR";
"2 1 8269 8268 8267 AND";
"2 1 8267 4779 4778 XOR";
"2 1 1578 4778 8265 XOR";
"2 1 1578 5019 8266 XOR";
"2 1 8266 4778 5054 XOR";
"2 1 1613 5054 8137 XOR";
"2 1 5019 4778 8264 XOR";
"2 1 8265 8264 8263 AND";
"2 1 8263 4778 4777 XOR";
"2 1 1577 5018 8262 XOR";
"2 1 8262 4777 5053 XOR";
"2 1 8248 8247 8246 AND";
"2 1 8246 4840 4839 XOR";
"2 1 1641 5082 8249 XOR";
"2 1 8249 4840 5116 XOR";
"2 1 1675 5116 8124 XOR";
"2 1 1640 5081 8245 XOR";
"2 1 8245 4839 5115 XOR";
"2 1 1640 4839 8244 XOR";
"2 1 1638 5079 8237 XOR";
"2 1 5081 4839 8243 XOR";
"2 1 8244 8243 8242 AND";
"2 1 8242 4839 4838 XOR";
"2 1 5080 4838 8239 XOR";
"2 1 1639 4838 8240 XOR";
"2 1 8241 4838 5114 XOR";
"2 1 8240 8239 8238 AND";
"2 1 8238 4838 4837 XOR";
"2 1 1638 4837 8236 XOR";
"2 1 8237 4837 5113 XOR";
"2 1 5079 4837 8235 XOR";
"2 1 8236 8235 8234 AND";
"2 1 8234 4837 4836 XOR";
"2 1 5078 4836 8231 XOR";
"2 1 1637 4836 8232 XOR";
"2 1 8232 8231 8230 AND";
"2 1 1637 5078 8233 XOR";
"2 1 8233 4836 5112 XOR";
"2 1 8230 4836 4835 XOR";
"2 1 1636 5077 8229 XOR";
"2 1 8229 4835 5111 XOR";
"2 1 5077 4835 8227 XOR";
"2 1 1636 4835 8228 XOR";
"2 1 1635 5076 8225 XOR";
"2 1 8228 8227 8226 AND";
"2 1 8226 4835 4834 XOR";
"2 1 1635 4834 8224 XOR";
"2 1 8225 4834 5110 XOR";
"2 1 5076 4834 8223 XOR";
"2 1 8224 8223 8222 AND";
"2 1 8222 4834 4833 XOR";
"2 1 8221 4833 5109 XOR";
"2 1 5075 4833 8219 XOR";
"2 1 1633 5074 8217 XOR";
"2 1 1634 4833 8220 XOR";
"2 1 8220 8219 8218 AND";
"2 1 8218 4833 4832 XOR";
"2 1 8217 4832 5108 XOR";
"2 1 1667 5108 8092 XOR";
"2 1 1633 4832 8216 XOR";
"2 1 5074 4832 8215 XOR";
"2 1 8216 8215 8214 AND";
"2 1 8214 4832 4831 XOR";
"2 1 5073 4831 8211 XOR";
"2 1 8213 4831 5107 XOR";
"2 1 1632 4831 8212 XOR";
"2 1 8212 8211 8210 AND";
"2 1 8210 4831 4830 XOR";
"2 1 1631 4830 8208 XOR";
"2 1 8209 4830 5106 XOR";
"2 1 1665 5106 8084 XOR";
"2 1 5072 4830 8207 XOR";
"2 1 8208 8207 8206 AND";
"2 1 8206 4830 4829 XOR";
"2 1 5071 4829 8203 XOR";
"2 1 1630 4829 8204 XOR";
"2 1 8204 8203 8202 AND";
"2 1 8202 4829 4828 XOR";
"2 1 8201 4828 5104 XOR";
"2 1 5070 4828 8199 XOR";
"2 1 1630 5071 8205 XOR";
"2 1 8205 4829 5105 XOR";
"2 1 1664 5105 8080 XOR";
"2 1 1627 5068 8193 XOR";
"2 1 1629 4828 8200 XOR";
"2 1 8200 8199 8198 AND";
"2 1 8198 4828 4827 XOR";
"2 1 1628 4827 8196 XOR";
"2 1 5069 4827 8195 XOR";
"2 1 8196 8195 8194 AND";
"2 1 8194 4827 4826 XOR";
"2 1 8193 4826 5102 XOR";
"2 1 1661 5102 8068 XOR";
"2 1 1628 5069 8197 XOR";
"2 1 8197 4827 5103 XOR";
"2 1 1662 5103 8072 XOR";
"2 1 5068 4826 8191 XOR";
"2 1 1627 4826 8192 XOR";
"2 1 8192 8191 8190 AND";
"2 1 8190 4826 4825 XOR";
"2 1 1626 4825 8188 XOR";
"2 1 8189 4825 5101 XOR";
"2 1 1660 5101 8064 XOR";
"2 1 5067 4825 8187 XOR";
"2 1 8188 8187 8186 AND";
"2 1 8186 4825 4824 XOR";
"2 1 1625 4824 8184 XOR";
"2 1 8185 4824 5100 XOR";
"2 1 1659 5100 8060 XOR";
"2 1 1624 5065 8181 XOR";
"2 1 5066 4824 8183 XOR";
"2 1 8184 8183 8182 AND";
"2 1 8182 4824 4823 XOR";
"2 1 5065 4823 8179 XOR";
"2 1 1624 4823 8180 XOR";
"2 1 8180 8179 8178 AND";
"2 1 8178 4823 4822 XOR";
"2 1 8181 4823 5099 XOR";
"2 1 1623 5064 8177 XOR";
"2 1 8177 4822 5098 XOR";
"2 1 1657 5098 8052 XOR";
"2 1 5064 4822 8175 XOR";
"2 1 1623 4822 8176 XOR";
"2 1 8176 8175 8174 AND";
"2 1 8174 4822 4821 XOR";
"2 1 1622 4821 8172 XOR";
"2 1 8173 4821 5097 XOR";
"2 1 1656 5097 8048 XOR";
"2 1 1621 5062 8169 XOR";
"2 1 5063 4821 8171 XOR";
"2 1 8172 8171 8170 AND";
"2 1 8170 4821 4820 XOR";
"2 1 5062 4820 8167 XOR";
"2 1 8169 4820 5096 XOR";
"2 1 1655 5096 8044 XOR";
"2 1 1621 4820 8168 XOR";
"2 1 8168 8167 8166 AND";
"2 1 8166 4820 4819 XOR";
"2 1 1620 4819 8164 XOR";
"2 1 8165 4819 5095 XOR";
"2 1 1654 5095 8040 XOR";
"2 1 5061 4819 8163 XOR";
"2 1 8164 8163 8162 AND";
"2 1 8162 4819 4818 XOR";
"2 1 5060 4818 8159 XOR";
"2 1 8161 4818 5094 XOR";
"2 1 1653 5094 8036 XOR";
"2 1 1619 4818 8160 XOR";
"2 1 8160 8159 8158 AND";
"2 1 8158 4818 4817 XOR";
"2 1 5059 4817 8155 XOR";
"2 1 1618 4817 8156 XOR";
"2 1 8156 8155 8154 AND";
"2 1 1618 5059 8157 XOR";
"2 1 8157 4817 5093 XOR";
"2 1 1652 5093 8032 XOR";
"2 1 8154 4817 4816 XOR";
"2 1 5058 4816 8151 XOR";
"2 1 1617 5058 8153 XOR";
"2 1 8153 4816 5092 XOR";
"2 1 1617 4816 8152 XOR";
"2 1 8152 8151 8150 AND";
"2 1 8150 4816 4815 XOR";
"2 1 5057 4815 8147 XOR";
"2 1 1616 4815 8148 XOR";
"2 1 8148 8147 8146 AND";
"2 1 8146 4815 4814 XOR";
"2 1 1616 5057 8149 XOR";
"2 1 8149 4815 5091 XOR";
"2 1 5056 4814 8143 XOR";
"2 1 1615 5056 8145 XOR";
"2 1 8145 4814 5090 XOR";
"2 1 1615 4814 8144 XOR";
"2 1 8144 8143 8142 AND";
"2 1 8142 4814 4813 XOR";
"2 1 5055 4813 8139 XOR";
"2 1 1614 4813 8140 XOR";
"2 1 8140 8139 8138 AND";
"2 1 1614 5055 8141 XOR";
"2 1 8141 4813 5089 XOR";
"2 1 8138 4813 4812 XOR";
"2 1 5054 4812 8135 XOR";
"2 1 8137 4812 5088 XOR";
"2 1 1647 5088 8012 XOR";
"2 1 1612 5053 8133 XOR";
"2 1 1613 4812 8136 XOR";
"2 1 8136 8135 8134 AND";
"2 1 8134 4812 4811 XOR";
"2 1 8133 4811 5087 XOR";
"2 1 1646 5087 8008 XOR";
"2 1 8124 4873 5149 XOR";
"2 1 5149 4905 8001 XOR";
"2 1 5116 4873 8122 XOR";
"2 1 8123 8122 8121 AND";
"2 1 1674 5115 8120 XOR";
"2 1 8121 4873 4872 XOR";
"2 1 8120 4872 5148 XOR";
"2 1 1707 5148 7999 XOR";
"2 1 1674 4872 8119 XOR";
"2 1 1673 5114 8116 XOR";
"2 1 5115 4872 8118 XOR";
"2 1 8119 8118 8117 AND";
"2 1 8117 4872 4871 XOR";
"2 1 5114 4871 8114 XOR";
"2 1 8116 4871 5147 XOR";
"2 1 1672 5113 8112 XOR";
"2 1 1673 4871 8115 XOR";
"2 1 8115 8114 8113 AND";
"2 1 8113 4871 4870 XOR";
"2 1 8112 4870 5146 XOR";
"2 1 5113 4870 8110 XOR";
"2 1 1672 4870 8111 XOR";
"2 1 8111 8110 8109 AND";
"2 1 8109 4870 4869 XOR";
"2 1 1671 5112 8108 XOR";
"2 1 8108 4869 5145 XOR";
"2 1 1704 5145 7987 XOR";
"2 1 1670 5111 8104 XOR";
"2 1 1671 4869 8107 XOR";
"2 1 5112 4869 8106 XOR";
"2 1 8107 8106 8105 AND";
"2 1 8105 4869 4868 XOR";
"2 1 8104 4868 5144 XOR";
"2 1 1670 4868 8103 XOR";
"2 1 1703 5144 7983 XOR";
"2 1 1669 5110 8100 XOR";
"2 1 5111 4868 8102 XOR";
"2 1 8103 8102 8101 AND";
"2 1 8101 4868 4867 XOR";
"2 1 5110 4867 8098 XOR";
"2 1 8100 4867 5143 XOR";
"2 1 1702 5143 7979 XOR";
"2 1 1669 4867 8099 XOR";
"2 1 8099 8098 8097 AND";
"2 1 8097 4867 4866 XOR";
"2 1 1668 5109 8096 XOR";
"2 1 8096 4866 5142 XOR";
"2 1 1701 5142 7975 XOR";
"2 1 5109 4866 8094 XOR";
"2 1 1668 4866 8095 XOR";
"2 1 8095 8094 8093 AND";
"2 1 8093 4866 4865 XOR";
"2 1 1667 4865 8091 XOR";
"2 1 8092 4865 5141 XOR";
"2 1 1700 5141 7971 XOR";
"2 1 5108 4865 8090 XOR";
"2 1 8091 8090 8089 AND";
"2 1 8089 4865 4864 XOR";
"2 1 1666 4864 8087 XOR";
"2 1 5107 4864 8086 XOR";
"2 1 8087 8086 8085 AND";
"2 1 8085 4864 4863 XOR";
"2 1 1665 4863 8083 XOR";
"2 1 5106 4863 8082 XOR";
"2 1 8084 4863 5139 XOR";
"2 1 1698 5139 7963 XOR";
"2 1 1666 5107 8088 XOR";
"2 1 8088 4864 5140 XOR";
"2 1 1699 5140 7967 XOR";
"2 1 8083 8082 8081 AND";
"2 1 8081 4863 4862 XOR";
"2 1 1664 4862 8079 XOR";
"2 1 8080 4862 5138 XOR";
"2 1 1697 5138 7959 XOR";
"2 1 5105 4862 8078 XOR";
"2 1 8079 8078 8077 AND";
"2 1 8077 4862 4861 XOR";
"2 1 1663 4861 8075 XOR";
"2 1 5104 4861 8074 XOR";
"2 1 8075 8074 8073 AND";
"2 1 8073 4861 4860 XOR";
"2 1 1662 4860 8071 XOR";
"2 1 1663 5104 8076 XOR";
"2 1 8076 4861 5137 XOR";
"2 1 1696 5137 7955 XOR";
"2 1 8072 4860 5136 XOR";
"2 1 1695 5136 7951 XOR";
"2 1 5103 4860 8070 XOR";
"2 1 8071 8070 8069 AND";
"2 1 8069 4860 4859 XOR";
"2 1 1661 4859 8067 XOR";
"2 1 5102 4859 8066 XOR";
"2 1 8067 8066 8065 AND";
"2 1 8068 4859 5135 XOR";
"2 1 1694 5135 7947 XOR";
"2 1 8065 4859 4858 XOR";
"2 1 1660 4858 8063 XOR";
"2 1 8064 4858 5134 XOR";
"2 1 1693 5134 7943 XOR";
"2 1 5101 4858 8062 XOR";
"2 1 8063 8062 8061 AND";
"2 1 8061 4858 4857 XOR";
"2 1 8060 4857 5133 XOR";
"2 1 1692 5133 7939 XOR";
"2 1 5100 4857 8058 XOR";
"2 1 1659 4857 8059 XOR";
"2 1 8059 8058 8057 AND";
"2 1 8057 4857 4856 XOR";
"2 1 5099 4856 8054 XOR";
"2 1 1658 5099 8056 XOR";
"2 1 8056 4856 5132 XOR";
"2 1 1691 5132 7935 XOR";
"2 1 1658 4856 8055 XOR";
"2 1 8055 8054 8053 AND";
"2 1 8053 4856 4855 XOR";
"2 1 5098 4855 8050 XOR";
"2 1 8052 4855 5131 XOR";
"2 1 1690 5131 7931 XOR";
"2 1 1657 4855 8051 XOR";
"2 1 8051 8050 8049 AND";
"2 1 8049 4855 4854 XOR";
"2 1 5097 4854 8046 XOR";
"2 1 8048 4854 5130 XOR";
"2 1 1689 5130 7927 XOR";
"2 1 1656 4854 8047 XOR";
"2 1 8047 8046 8045 AND";
"2 1 8045 4854 4853 XOR";
"2 1 1655 4853 8043 XOR";
"2 1 8044 4853 5129 XOR";
"2 1 1688 5129 7923 XOR";
"2 1 5096 4853 8042 XOR";
"2 1 8043 8042 8041 AND";
"2 1 8041 4853 4852 XOR";
"2 1 8040 4852 5128 XOR";
"2 1 1687 5128 7919 XOR";
"2 1 1654 4852 8039 XOR";
"2 1 5095 4852 8038 XOR";
"2 1 8039 8038 8037 AND";
"2 1 8037 4852 4851 XOR";
"2 1 1653 4851 8035 XOR";
"2 1 8036 4851 5127 XOR";
"2 1 1686 5127 7915 XOR";
"2 1 5094 4851 8034 XOR";
"2 1 8035 8034 8033 AND";
"2 1 8033 4851 4850 XOR";
"2 1 1652 4850 8031 XOR";
"2 1 5093 4850 8030 XOR";
"2 1 8031 8030 8029 AND";
"2 1 8029 4850 4849 XOR";
"2 1 5092 4849 8026 XOR";
"2 1 8032 4850 5126 XOR";
"2 1 1685 5126 7911 XOR";
"2 1 1651 5092 8028 XOR";
"2 1 8028 4849 5125 XOR";
"2 1 1684 5125 7907 XOR";
"2 1 1651 4849 8027 XOR";
"2 1 8027 8026 8025 AND";
"2 1 8025 4849 4848 XOR";
"2 1 1650 4848 8023 XOR";
"2 1 5091 4848 8022 XOR";
"2 1 1650 5091 8024 XOR";
"2 1 8024 4848 5124 XOR";
"2 1 1683 5124 7903 XOR";
"2 1 8023 8022 8021 AND";
"2 1 8021 4848 4847 XOR";
"2 1 1649 4847 8019 XOR";
"2 1 5090 4847 8018 XOR";
"2 1 8019 8018 8017 AND";
"2 1 8017 4847 4846 XOR";
"2 1 1648 4846 8015 XOR";
"2 1 5089 4846 8014 XOR";
"2 1 1649 5090 8020 XOR";
"2 1 8020 4847 5123 XOR";
"2 1 1682 5123 7899 XOR";
"2 1 8015 8014 8013 AND";
"2 1 8013 4846 4845 XOR";
"2 1 1647 4845 8011 XOR";
"2 1 1648 5089 8016 XOR";
"2 1 8016 4846 5122 XOR";
"2 1 1681 5122 7895 XOR";
"2 1 8012 4845 5121 XOR";
"2 1 1680 5121 7891 XOR";
"2 1 5088 4845 8010 XOR";
"2 1 8011 8010 8009 AND";
"2 1 8009 4845 4844 XOR";
"2 1 8008 4844 5120 XOR";
"2 1 1679 5120 7887 XOR";
"2 1 8002 8001 8000 AND";
"2 1 8000 4905 4904 XOR";
"2 1 7999 4904 5180 XOR";
"2 1 1707 4904 7998 XOR";
"2 1 5148 4904 7997 XOR";
"2 1 1739 5180 7882 XOR";
"2 1 1708 5149 8003 XOR";
"2 1 8003 4905 5181 XOR";
"2 1 1740 5181 7886 XOR";
"2 1 7886 5212 5424 XOR";
"2 1 1771 5424 13773 XOR";
"2 1 1771 5424 5241 AND";
"2 1 5181 5212 7884 XOR";
"2 1 7885 7884 7883 AND";
"2 1 7883 5212 5211 XOR";
"2 1 7882 5211 5423 XOR";
"2 1 1770 5423 7769 XOR";
"2 1 7769 5241 5453 XOR";
"2 1 1800 5453 13774 XOR";
"2 1 1800 5453 5269 AND";
"2 1 1799 5269 7655 XOR";
"2 1 1770 5241 7768 XOR";
"2 1 5423 5241 7767 XOR";
"2 1 7768 7767 7766 AND";
"2 1 7766 5241 5240 XOR";
"2 1 1739 5211 7881 XOR";
"2 1 5180 5211 7880 XOR";
"2 1 7881 7880 7879 AND";
"2 1 7879 5211 5210 XOR";
"2 1 1738 5210 7877 XOR";
"2 1 1769 5240 7764 XOR";
"2 1 7998 7997 7996 AND";
"2 1 7996 4904 4903 XOR";
"2 1 1706 4903 7994 XOR";
"2 1 1706 5147 7995 XOR";
"2 1 7995 4903 5179 XOR";
"2 1 1738 5179 7878 XOR";
"2 1 5179 5210 7876 XOR";
"2 1 7877 7876 7875 AND";
"2 1 7875 5210 5209 XOR";
"2 1 1737 5209 7873 XOR";
"2 1 7878 5210 5422 XOR";
"2 1 1769 5422 7765 XOR";
"2 1 7765 5240 5452 XOR";
"2 1 1799 5452 7656 XOR";
"2 1 7656 5269 5481 XOR";
"2 1 1828 5481 13775 XOR";
"2 1 1828 5481 5296 AND";
"2 1 1827 5296 7546 XOR";
"2 1 5452 5269 7654 XOR";
"2 1 7655 7654 7653 AND";
"2 1 7653 5269 5268 XOR";
"2 1 1798 5268 7651 XOR";
"2 1 5422 5240 7763 XOR";
"2 1 7764 7763 7762 AND";
"2 1 7762 5240 5239 XOR";
"2 1 1768 5239 7760 XOR";
"2 1 5147 4903 7993 XOR";
"2 1 7994 7993 7992 AND";
"2 1 7992 4903 4902 XOR";
"2 1 1705 4902 7990 XOR";
"2 1 5146 4902 7989 XOR";
"2 1 1705 5146 7991 XOR";
"2 1 7991 4902 5178 XOR";
"2 1 5178 5209 7872 XOR";
"2 1 1737 5178 7874 XOR";
"2 1 7874 5209 5421 XOR";
"2 1 1768 5421 7761 XOR";
"2 1 7873 7872 7871 AND";
"2 1 7871 5209 5208 XOR";
"2 1 1736 5208 7869 XOR";
"2 1 7761 5239 5451 XOR";
"2 1 5451 5268 7650 XOR";
"2 1 7651 7650 7649 AND";
"2 1 1798 5451 7652 XOR";
"2 1 7652 5268 5480 XOR";
"2 1 1827 5480 7547 XOR";
"2 1 7547 5296 5508 XOR";
"2 1 1855 5508 13776 XOR";
"2 1 1855 5508 5322 AND";
"2 1 5480 5296 7545 XOR";
"2 1 7546 7545 7544 AND";
"2 1 7544 5296 5295 XOR";
"2 1 1826 5295 7542 XOR";
"2 1 1854 5322 7441 XOR";
"2 1 7649 5268 5267 XOR";
"2 1 1797 5267 7647 XOR";
"2 1 5421 5239 7759 XOR";
"2 1 7760 7759 7758 AND";
"2 1 7758 5239 5238 XOR";
"2 1 1767 5238 7756 XOR";
"2 1 7990 7989 7988 AND";
"2 1 7988 4902 4901 XOR";
"2 1 1704 4901 7986 XOR";
"2 1 5145 4901 7985 XOR";
"2 1 7986 7985 7984 AND";
"2 1 7984 4901 4900 XOR";
"2 1 5144 4900 7981 XOR";
"2 1 7983 4900 5176 XOR";
"2 1 1735 5176 7866 XOR";
"2 1 7987 4901 5177 XOR";
"2 1 1736 5177 7870 XOR";
"2 1 7870 5208 5420 XOR";
"2 1 1767 5420 7757 XOR";
"2 1 7757 5238 5450 XOR";
"2 1 5420 5238 7755 XOR";
"2 1 5177 5208 7868 XOR";
"2 1 7869 7868 7867 AND";
"2 1 7867 5208 5207 XOR";
"2 1 7866 5207 5419 XOR";
"2 1 1766 5419 7753 XOR";
"2 1 1735 5207 7865 XOR";
"2 1 5176 5207 7864 XOR";
"2 1 7865 7864 7863 AND";
"2 1 7863 5207 5206 XOR";
"2 1 1734 5206 7861 XOR";
"2 1 5450 5267 7646 XOR";
"2 1 7647 7646 7645 AND";
"2 1 1797 5450 7648 XOR";
"2 1 7648 5267 5479 XOR";
"2 1 1826 5479 7543 XOR";
"2 1 7543 5295 5507 XOR";
"2 1 5479 5295 7541 XOR";
"2 1 7542 7541 7540 AND";
"2 1 7540 5295 5294 XOR";
"2 1 1825 5294 7538 XOR";
"2 1 1854 5507 7442 XOR";
"2 1 7442 5322 5534 XOR";
"2 1 1881 5534 13777 XOR";
"2 1 1881 5534 5347 AND";
"2 1 5507 5322 7440 XOR";
"2 1 7441 7440 7439 AND";
"2 1 7439 5322 5321 XOR";
"2 1 1853 5321 7437 XOR";
"2 1 1880 5347 7340 XOR";
"2 1 7645 5267 5266 XOR";
"2 1 1796 5266 7643 XOR";
"2 1 7756 7755 7754 AND";
"2 1 7754 5238 5237 XOR";
"2 1 1766 5237 7752 XOR";
"2 1 7753 5237 5449 XOR";
"2 1 5419 5237 7751 XOR";
"2 1 7752 7751 7750 AND";
"2 1 7750 5237 5236 XOR";
"2 1 1765 5236 7748 XOR";
"2 1 5449 5266 7642 XOR";
"2 1 1796 5449 7644 XOR";
"2 1 7644 5266 5478 XOR";
"2 1 1825 5478 7539 XOR";
"2 1 7539 5294 5506 XOR";
"2 1 5478 5294 7537 XOR";
"2 1 7538 7537 7536 AND";
"2 1 7536 5294 5293 XOR";
"2 1 1824 5293 7534 XOR";
"2 1 1853 5506 7438 XOR";
"2 1 7438 5321 5533 XOR";
"2 1 5506 5321 7436 XOR";
"2 1 7437 7436 7435 AND";
"2 1 7435 5321 5320 XOR";
"2 1 1852 5320 7433 XOR";
"2 1 5533 5347 7339 XOR";
"2 1 1880 5533 7341 XOR";
"2 1 7341 5347 5559 XOR";
"2 1 1906 5559 13778 XOR";
"2 1 1906 5559 5371 AND";
"2 1 7340 7339 7338 AND";
"2 1 7338 5347 5346 XOR";
"2 1 1879 5346 7336 XOR";
"2 1 1905 5371 7243 XOR";
"2 1 7643 7642 7641 AND";
"2 1 7641 5266 5265 XOR";
"2 1 1795 5265 7639 XOR";
"2 1 1703 4900 7982 XOR";
"2 1 7982 7981 7980 AND";
"2 1 7980 4900 4899 XOR";
"2 1 5143 4899 7977 XOR";
"2 1 7979 4899 5175 XOR";
"2 1 1702 4899 7978 XOR";
"2 1 7978 7977 7976 AND";
"2 1 7976 4899 4898 XOR";
"2 1 5142 4898 7973 XOR";
"2 1 7975 4898 5174 XOR";
"2 1 1734 5175 7862 XOR";
"2 1 7862 5206 5418 XOR";
"2 1 1765 5418 7749 XOR";
"2 1 7749 5236 5448 XOR";
"2 1 5448 5265 7638 XOR";
"2 1 5418 5236 7747 XOR";
"2 1 7748 7747 7746 AND";
"2 1 7746 5236 5235 XOR";
"2 1 1764 5235 7744 XOR";
"2 1 1795 5448 7640 XOR";
"2 1 7640 5265 5477 XOR";
"2 1 1824 5477 7535 XOR";
"2 1 7535 5293 5505 XOR";
"2 1 5477 5293 7533 XOR";
"2 1 7534 7533 7532 AND";
"2 1 7532 5293 5292 XOR";
"2 1 1823 5292 7530 XOR";
"2 1 1852 5505 7434 XOR";
"2 1 7434 5320 5532 XOR";
"2 1 5505 5320 7432 XOR";
"2 1 7433 7432 7431 AND";
"2 1 7431 5320 5319 XOR";
"2 1 1851 5319 7429 XOR";
"2 1 1879 5532 7337 XOR";
"2 1 7337 5346 5558 XOR";
"2 1 5532 5346 7335 XOR";
"2 1 7336 7335 7334 AND";
"2 1 7334 5346 5345 XOR";
"2 1 1878 5345 7332 XOR";
"2 1 1905 5558 7244 XOR";
"2 1 7244 5371 5583 XOR";
"2 1 1930 5583 13779 XOR";
"2 1 1930 5583 5394 AND";
"2 1 5558 5371 7242 XOR";
"2 1 7243 7242 7241 AND";
"2 1 7241 5371 5370 XOR";
"2 1 1904 5370 7239 XOR";
"2 1 1929 5394 7150 XOR";
"2 1 7639 7638 7637 AND";
"2 1 7637 5265 5264 XOR";
"2 1 1794 5264 7635 XOR";
"2 1 1733 5174 7858 XOR";
"2 1 5175 5206 7860 XOR";
"2 1 7861 7860 7859 AND";
"2 1 7859 5206 5205 XOR";
"2 1 7858 5205 5417 XOR";
"2 1 1764 5417 7745 XOR";
"2 1 7745 5235 5447 XOR";
"2 1 5447 5264 7634 XOR";
"2 1 5417 5235 7743 XOR";
"2 1 7744 7743 7742 AND";
"2 1 7742 5235 5234 XOR";
"2 1 1763 5234 7740 XOR";
"2 1 1794 5447 7636 XOR";
"2 1 7636 5264 5476 XOR";
"2 1 5476 5292 7529 XOR";
"2 1 1823 5476 7531 XOR";
"2 1 7531 5292 5504 XOR";
"2 1 7530 7529 7528 AND";
"2 1 7528 5292 5291 XOR";
"2 1 1822 5291 7526 XOR";
"2 1 1851 5504 7430 XOR";
"2 1 7430 5319 5531 XOR";
"2 1 5504 5319 7428 XOR";
"2 1 7429 7428 7427 AND";
"2 1 7427 5319 5318 XOR";
"2 1 1850 5318 7425 XOR";
"2 1 1878 5531 7333 XOR";
"2 1 7333 5345 5557 XOR";
"2 1 5531 5345 7331 XOR";
"2 1 7332 7331 7330 AND";
"2 1 7330 5345 5344 XOR";
"2 1 1877 5344 7328 XOR";
"2 1 1904 5557 7240 XOR";
"2 1 7240 5370 5582 XOR";
"2 1 5557 5370 7238 XOR";
"2 1 7239 7238 7237 AND";
"2 1 7237 5370 5369 XOR";
"2 1 1903 5369 7235 XOR";
"2 1 1929 5582 7151 XOR";
"2 1 7151 5394 5606 XOR";
"2 1 1953 5606 13780 XOR";
"2 1 1953 5606 5628 AND";
"2 1 5582 5394 7149 XOR";
"2 1 7150 7149 7148 AND";
"2 1 7148 5394 5393 XOR";
"2 1 1928 5393 7146 XOR";
"2 1 7635 7634 7633 AND";
"2 1 7633 5264 5263 XOR";
"2 1 1793 5263 7631 XOR";
"2 1 1952 5628 7061 XOR";
"2 1 1701 4898 7974 XOR";
"2 1 7974 7973 7972 AND";
"2 1 7972 4898 4897 XOR";
"2 1 1700 4897 7970 XOR";
"2 1 5141 4897 7969 XOR";
"2 1 7971 4897 5173 XOR";
"2 1 1732 5173 7854 XOR";
"2 1 7970 7969 7968 AND";
"2 1 7968 4897 4896 XOR";
"2 1 1699 4896 7966 XOR";
"2 1 5140 4896 7965 XOR";
"2 1 7966 7965 7964 AND";
"2 1 7967 4896 5172 XOR";
"2 1 1731 5172 7850 XOR";
"2 1 7964 4896 4895 XOR";
"2 1 1698 4895 7962 XOR";
"2 1 7963 4895 5171 XOR";
"2 1 5139 4895 7961 XOR";
"2 1 7962 7961 7960 AND";
"2 1 7960 4895 4894 XOR";
"2 1 7959 4894 5170 XOR";
"2 1 5138 4894 7957 XOR";
"2 1 1697 4894 7958 XOR";
"2 1 7958 7957 7956 AND";
"2 1 7956 4894 4893 XOR";
"2 1 7955 4893 5169 XOR";
"2 1 1730 5171 7846 XOR";
"2 1 1729 5170 7842 XOR";
"2 1 1728 5169 7838 XOR";
"2 1 1696 4893 7954 XOR";
"2 1 5137 4893 7953 XOR";
"2 1 7954 7953 7952 AND";
"2 1 7952 4893 4892 XOR";
"2 1 5136 4892 7949 XOR";
"2 1 5174 5205 7856 XOR";
"2 1 1733 5205 7857 XOR";
"2 1 7857 7856 7855 AND";
"2 1 7855 5205 5204 XOR";
"2 1 7854 5204 5416 XOR";
"2 1 1763 5416 7741 XOR";
"2 1 7741 5234 5446 XOR";
"2 1 1793 5446 7632 XOR";
"2 1 7632 5263 5475 XOR";
"2 1 5475 5291 7525 XOR";
"2 1 1822 5475 7527 XOR";
"2 1 7527 5291 5503 XOR";
"2 1 7526 7525 7524 AND";
"2 1 7524 5291 5290 XOR";
"2 1 1821 5290 7522 XOR";
"2 1 1850 5503 7426 XOR";
"2 1 7426 5318 5530 XOR";
"2 1 5503 5318 7424 XOR";
"2 1 7425 7424 7423 AND";
"2 1 7423 5318 5317 XOR";
"2 1 1849 5317 7421 XOR";
"2 1 5446 5263 7630 XOR";
"2 1 7631 7630 7629 AND";
"2 1 7629 5263 5262 XOR";
"2 1 1792 5262 7627 XOR";
"2 1 1877 5530 7329 XOR";
"2 1 7329 5344 5556 XOR";
"2 1 5530 5344 7327 XOR";
"2 1 7328 7327 7326 AND";
"2 1 7326 5344 5343 XOR";
"2 1 1876 5343 7324 XOR";
"2 1 1903 5556 7236 XOR";
"2 1 7236 5369 5581 XOR";
"2 1 5556 5369 7234 XOR";
"2 1 7235 7234 7233 AND";
"2 1 7233 5369 5368 XOR";
"2 1 1902 5368 7231 XOR";
"2 1 1928 5581 7147 XOR";
"2 1 7147 5393 5605 XOR";
"2 1 5581 5393 7145 XOR";
"2 1 7146 7145 7144 AND";
"2 1 7144 5393 5392 XOR";
"2 1 1927 5392 7142 XOR";
"2 1 1952 5605 7062 XOR";
"2 1 7062 5628 5776 XOR";
"2 1 1975 5776 13781 XOR";
"2 1 1975 5776 5649 AND";
"2 1 5605 5628 7060 XOR";
"2 1 7061 7060 7059 AND";
"2 1 7059 5628 5627 XOR";
"2 1 1951 5627 7057 XOR";
"2 1 5416 5234 7739 XOR";
"2 1 7740 7739 7738 AND";
"2 1 7738 5234 5233 XOR";
"2 1 1762 5233 7736 XOR";
"2 1 1974 5649 6976 XOR";
"2 1 1732 5204 7853 XOR";
"2 1 5173 5204 7852 XOR";
"2 1 7853 7852 7851 AND";
"2 1 7851 5204 5203 XOR";
"2 1 7850 5203 5415 XOR";
"2 1 1731 5203 7849 XOR";
"2 1 5172 5203 7848 XOR";
"2 1 7849 7848 7847 AND";
"2 1 7847 5203 5202 XOR";
"2 1 1730 5202 7845 XOR";
"2 1 7846 5202 5414 XOR";
"2 1 5171 5202 7844 XOR";
"2 1 7845 7844 7843 AND";
"2 1 7843 5202 5201 XOR";
"2 1 7842 5201 5413 XOR";
"2 1 1729 5201 7841 XOR";
"2 1 5170 5201 7840 XOR";
"2 1 7841 7840 7839 AND";
"2 1 7839 5201 5200 XOR";
"2 1 7838 5200 5412 XOR";
"2 1 5169 5200 7836 XOR";
"2 1 1728 5200 7837 XOR";
"2 1 7837 7836 7835 AND";
"2 1 7835 5200 5199 XOR";
"2 1 1727 5199 7833 XOR";
"2 1 1762 5415 7737 XOR";
"2 1 7737 5233 5445 XOR";
"2 1 1792 5445 7628 XOR";
"2 1 7628 5262 5474 XOR";
"2 1 5474 5290 7521 XOR";
"2 1 1821 5474 7523 XOR";
"2 1 7523 5290 5502 XOR";
"2 1 7522 7521 7520 AND";
"2 1 7520 5290 5289 XOR";
"2 1 1820 5289 7518 XOR";
"2 1 1849 5502 7422 XOR";
"2 1 7422 5317 5529 XOR";
"2 1 5502 5317 7420 XOR";
"2 1 7421 7420 7419 AND";
"2 1 7419 5317 5316 XOR";
"2 1 1848 5316 7417 XOR";
"2 1 1876 5529 7325 XOR";
"2 1 7325 5343 5555 XOR";
"2 1 5529 5343 7323 XOR";
"2 1 7324 7323 7322 AND";
"2 1 7322 5343 5342 XOR";
"2 1 1875 5342 7320 XOR";
"2 1 5445 5262 7626 XOR";
"2 1 7627 7626 7625 AND";
"2 1 7625 5262 5261 XOR";
"2 1 1791 5261 7623 XOR";
"2 1 1902 5555 7232 XOR";
"2 1 7232 5368 5580 XOR";
"2 1 5555 5368 7230 XOR";
"2 1 7231 7230 7229 AND";
"2 1 7229 5368 5367 XOR";
"2 1 1901 5367 7227 XOR";
"2 1 1927 5580 7143 XOR";
"2 1 7143 5392 5604 XOR";
"2 1 5580 5392 7141 XOR";
"2 1 7142 7141 7140 AND";
"2 1 7140 5392 5391 XOR";
"2 1 1926 5391 7138 XOR";
"2 1 1951 5604 7058 XOR";
"2 1 7058 5627 5775 XOR";
"2 1 5604 5627 7056 XOR";
"2 1 7057 7056 7055 AND";
"2 1 7055 5627 5626 XOR";
"2 1 1950 5626 7053 XOR";
"2 1 1974 5775 6977 XOR";
"2 1 6977 5649 5797 XOR";
"2 1 1996 5797 13782 XOR";
"2 1 1996 5797 5669 AND";
"2 1 5775 5649 6975 XOR";
"2 1 6976 6975 6974 AND";
"2 1 6974 5649 5648 XOR";
"2 1 1973 5648 6972 XOR";
"2 1 5415 5233 7735 XOR";
"2 1 7736 7735 7734 AND";
"2 1 7734 5233 5232 XOR";
"2 1 1761 5232 7732 XOR";
"2 1 1761 5414 7733 XOR";
"2 1 7733 5232 5444 XOR";
"2 1 1791 5444 7624 XOR";
"2 1 7624 5261 5473 XOR";
"2 1 1820 5473 7519 XOR";
"2 1 7519 5289 5501 XOR";
"2 1 5473 5289 7517 XOR";
"2 1 7518 7517 7516 AND";
"2 1 7516 5289 5288 XOR";
"2 1 1819 5288 7514 XOR";
"2 1 1848 5501 7418 XOR";
"2 1 7418 5316 5528 XOR";
"2 1 5501 5316 7416 XOR";
"2 1 7417 7416 7415 AND";
"2 1 7415 5316 5315 XOR";
"2 1 1847 5315 7413 XOR";
"2 1 5528 5342 7319 XOR";
"2 1 1875 5528 7321 XOR";
"2 1 7321 5342 5554 XOR";
"2 1 7320 7319 7318 AND";
"2 1 7318 5342 5341 XOR";
"2 1 1874 5341 7316 XOR";
"2 1 1901 5554 7228 XOR";
"2 1 7228 5367 5579 XOR";
"2 1 5554 5367 7226 XOR";
"2 1 7227 7226 7225 AND";
"2 1 7225 5367 5366 XOR";
"2 1 1900 5366 7223 XOR";
"2 1 5444 5261 7622 XOR";
"2 1 7623 7622 7621 AND";
"2 1 7621 5261 5260 XOR";
"2 1 1790 5260 7619 XOR";
"2 1 1926 5579 7139 XOR";
"2 1 7139 5391 5603 XOR";
"2 1 5579 5391 7137 XOR";
"2 1 7138 7137 7136 AND";
"2 1 7136 5391 5390 XOR";
"2 1 1925 5390 7134 XOR";
"2 1 1950 5603 7054 XOR";
"2 1 7054 5626 5774 XOR";
"2 1 5603 5626 7052 XOR";
"2 1 7053 7052 7051 AND";
"2 1 7051 5626 5625 XOR";
"2 1 1949 5625 7049 XOR";
"2 1 1973 5774 6973 XOR";
"2 1 6973 5648 5796 XOR";
"2 1 1995 5796 6896 XOR";
"2 1 5774 5648 6971 XOR";
"2 1 6972 6971 6970 AND";
"2 1 6970 5648 5647 XOR";
"2 1 1972 5647 6968 XOR";
"2 1 6896 5669 5817 XOR";
"2 1 2016 5817 13783 XOR";
"2 1 2016 5817 5688 AND";
"2 1 5796 5669 6894 XOR";
"2 1 1995 5669 6895 XOR";
"2 1 6895 6894 6893 AND";
"2 1 6893 5669 5668 XOR";
"2 1 1994 5668 6891 XOR";
"2 1 2015 5688 6818 XOR";
"2 1 5414 5232 7731 XOR";
"2 1 7732 7731 7730 AND";
"2 1 7730 5232 5231 XOR";
"2 1 1760 5413 7729 XOR";
"2 1 7729 5231 5443 XOR";
"2 1 5443 5260 7618 XOR";
"2 1 1790 5443 7620 XOR";
"2 1 7620 5260 5472 XOR";
"2 1 1819 5472 7515 XOR";
"2 1 7515 5288 5500 XOR";
"2 1 5472 5288 7513 XOR";
"2 1 7514 7513 7512 AND";
"2 1 7512 5288 5287 XOR";
"2 1 1818 5287 7510 XOR";
"2 1 1847 5500 7414 XOR";
"2 1 7414 5315 5527 XOR";
"2 1 5500 5315 7412 XOR";
"2 1 7413 7412 7411 AND";
"2 1 7411 5315 5314 XOR";
"2 1 1846 5314 7409 XOR";
"2 1 1874 5527 7317 XOR";
"2 1 7317 5341 5553 XOR";
"2 1 5527 5341 7315 XOR";
"2 1 7316 7315 7314 AND";
"2 1 7314 5341 5340 XOR";
"2 1 1873 5340 7312 XOR";
"2 1 1900 5553 7224 XOR";
"2 1 7224 5366 5578 XOR";
"2 1 5553 5366 7222 XOR";
"2 1 7223 7222 7221 AND";
"2 1 7221 5366 5365 XOR";
"2 1 1899 5365 7219 XOR";
"2 1 7619 7618 7617 AND";
"2 1 7617 5260 5259 XOR";
"2 1 1925 5578 7135 XOR";
"2 1 7135 5390 5602 XOR";
"2 1 5578 5390 7133 XOR";
"2 1 7134 7133 7132 AND";
"2 1 7132 5390 5389 XOR";
"2 1 1924 5389 7130 XOR";
"2 1 1949 5602 7050 XOR";
"2 1 7050 5625 5773 XOR";
"2 1 5602 5625 7048 XOR";
"2 1 7049 7048 7047 AND";
"2 1 7047 5625 5624 XOR";
"2 1 1948 5624 7045 XOR";
"2 1 1789 5259 7615 XOR";
"2 1 1972 5773 6969 XOR";
"2 1 5773 5647 6967 XOR";
"2 1 6969 5647 5795 XOR";
"2 1 6968 6967 6966 AND";
"2 1 6966 5647 5646 XOR";
"2 1 1971 5646 6964 XOR";
"2 1 5795 5668 6890 XOR";
"2 1 1994 5795 6892 XOR";
"2 1 6892 5668 5816 XOR";
"2 1 6891 6890 6889 AND";
"2 1 6889 5668 5667 XOR";
"2 1 1993 5667 6887 XOR";
"2 1 5816 5688 6817 XOR";
"2 1 2015 5816 6819 XOR";
"2 1 6819 5688 5836 XOR";
"2 1 2035 5836 13784 XOR";
"2 1 2035 5836 5706 AND";
"2 1 2034 5706 6745 XOR";
"2 1 6818 6817 6816 AND";
"2 1 6816 5688 5687 XOR";
"2 1 2014 5687 6814 XOR";
"2 1 1760 5231 7728 XOR";
"2 1 1759 5412 7725 XOR";
"2 1 5413 5231 7727 XOR";
"2 1 7728 7727 7726 AND";
"2 1 7726 5231 5230 XOR";
"2 1 5412 5230 7723 XOR";
"2 1 7725 5230 5442 XOR";
"2 1 1789 5442 7616 XOR";
"2 1 7616 5259 5471 XOR";
"2 1 1818 5471 7511 XOR";
"2 1 7511 5287 5499 XOR";
"2 1 5471 5287 7509 XOR";
"2 1 7510 7509 7508 AND";
"2 1 7508 5287 5286 XOR";
"2 1 1817 5286 7506 XOR";
"2 1 1846 5499 7410 XOR";
"2 1 7410 5314 5526 XOR";
"2 1 5499 5314 7408 XOR";
"2 1 7409 7408 7407 AND";
"2 1 7407 5314 5313 XOR";
"2 1 1845 5313 7405 XOR";
"2 1 1873 5526 7313 XOR";
"2 1 7313 5340 5552 XOR";
"2 1 5526 5340 7311 XOR";
"2 1 7312 7311 7310 AND";
"2 1 7310 5340 5339 XOR";
"2 1 1872 5339 7308 XOR";
"2 1 1899 5552 7220 XOR";
"2 1 7220 5365 5577 XOR";
"2 1 5552 5365 7218 XOR";
"2 1 7219 7218 7217 AND";
"2 1 7217 5365 5364 XOR";
"2 1 1898 5364 7215 XOR";
"2 1 1924 5577 7131 XOR";
"2 1 7131 5389 5601 XOR";
"2 1 5577 5389 7129 XOR";
"2 1 7130 7129 7128 AND";
"2 1 7128 5389 5388 XOR";
"2 1 1923 5388 7126 XOR";
"2 1 1948 5601 7046 XOR";
"2 1 7046 5624 5772 XOR";
"2 1 5601 5624 7044 XOR";
"2 1 7045 7044 7043 AND";
"2 1 7043 5624 5623 XOR";
"2 1 1947 5623 7041 XOR";
"2 1 5442 5259 7614 XOR";
"2 1 7615 7614 7613 AND";
"2 1 7613 5259 5258 XOR";
"2 1 1788 5258 7611 XOR";
"2 1 5772 5646 6963 XOR";
"2 1 6964 6963 6962 AND";
"2 1 6962 5646 5645 XOR";
"2 1 1971 5772 6965 XOR";
"2 1 6965 5646 5794 XOR";
"2 1 1970 5645 6960 XOR";
"2 1 5794 5667 6886 XOR";
"2 1 6887 6886 6885 AND";
"2 1 6885 5667 5666 XOR";
"2 1 1993 5794 6888 XOR";
"2 1 6888 5667 5815 XOR";
"2 1 1992 5666 6883 XOR";
"2 1 5815 5687 6813 XOR";
"2 1 2014 5815 6815 XOR";
"2 1 6815 5687 5835 XOR";
"2 1 2034 5835 6746 XOR";
"2 1 6746 5706 5854 XOR";
"2 1 2053 5854 13785 XOR";
"2 1 2053 5854 5723 AND";
"2 1 6814 6813 6812 AND";
"2 1 6812 5687 5686 XOR";
"2 1 2013 5686 6810 XOR";
"2 1 5835 5706 6744 XOR";
"2 1 6745 6744 6743 AND";
"2 1 6743 5706 5705 XOR";
"2 1 2033 5705 6741 XOR";
"2 1 1759 5230 7724 XOR";
"2 1 7724 7723 7722 AND";
"2 1 7722 5230 5229 XOR";
"2 1 1758 5229 7720 XOR";
"2 1 2052 5723 6676 XOR";
"2 1 7951 4892 5168 XOR";
"2 1 1727 5168 7834 XOR";
"2 1 7834 5199 5411 XOR";
"2 1 5168 5199 7832 XOR";
"2 1 7833 7832 7831 AND";
"2 1 7831 5199 5198 XOR";
"2 1 1726 5198 7829 XOR";
"2 1 1758 5411 7721 XOR";
"2 1 7721 5229 5441 XOR";
"2 1 5441 5258 7610 XOR";
"2 1 7611 7610 7609 AND";
"2 1 1788 5441 7612 XOR";
"2 1 7612 5258 5470 XOR";
"2 1 1817 5470 7507 XOR";
"2 1 7507 5286 5498 XOR";
"2 1 5470 5286 7505 XOR";
"2 1 7506 7505 7504 AND";
"2 1 7504 5286 5285 XOR";
"2 1 1816 5285 7502 XOR";
"2 1 1845 5498 7406 XOR";
"2 1 7406 5313 5525 XOR";
"2 1 5498 5313 7404 XOR";
"2 1 7405 7404 7403 AND";
"2 1 7403 5313 5312 XOR";
"2 1 1844 5312 7401 XOR";
"2 1 1872 5525 7309 XOR";
"2 1 7309 5339 5551 XOR";
"2 1 5525 5339 7307 XOR";
"2 1 7308 7307 7306 AND";
"2 1 7306 5339 5338 XOR";
"2 1 1871 5338 7304 XOR";
"2 1 1898 5551 7216 XOR";
"2 1 7216 5364 5576 XOR";
"2 1 5551 5364 7214 XOR";
"2 1 7215 7214 7213 AND";
"2 1 7213 5364 5363 XOR";
"2 1 1897 5363 7211 XOR";
"2 1 1923 5576 7127 XOR";
"2 1 7127 5388 5600 XOR";
"2 1 5576 5388 7125 XOR";
"2 1 7126 7125 7124 AND";
"2 1 7124 5388 5387 XOR";
"2 1 1922 5387 7122 XOR";
"2 1 1947 5600 7042 XOR";
"2 1 7042 5623 5771 XOR";
"2 1 5771 5645 6959 XOR";
"2 1 5600 5623 7040 XOR";
"2 1 7041 7040 7039 AND";
"2 1 7039 5623 5622 XOR";
"2 1 1946 5622 7037 XOR";
"2 1 7609 5258 5257 XOR";
"2 1 1787 5257 7607 XOR";
"2 1 6960 6959 6958 AND";
"2 1 6958 5645 5644 XOR";
"2 1 1969 5644 6956 XOR";
"2 1 1970 5771 6961 XOR";
"2 1 6961 5645 5793 XOR";
"2 1 1992 5793 6884 XOR";
"2 1 6884 5666 5814 XOR";
"2 1 5793 5666 6882 XOR";
"2 1 6883 6882 6881 AND";
"2 1 6881 5666 5665 XOR";
"2 1 1991 5665 6879 XOR";
"2 1 2013 5814 6811 XOR";
"2 1 6811 5686 5834 XOR";
"2 1 2033 5834 6742 XOR";
"2 1 6742 5705 5853 XOR";
"2 1 5853 5723 6675 XOR";
"2 1 5814 5686 6809 XOR";
"2 1 6810 6809 6808 AND";
"2 1 6808 5686 5685 XOR";
"2 1 2012 5685 6806 XOR";
"2 1 5834 5705 6740 XOR";
"2 1 6741 6740 6739 AND";
"2 1 6739 5705 5704 XOR";
"2 1 2032 5704 6737 XOR";
"2 1 2052 5853 6677 XOR";
"2 1 6677 5723 5871 XOR";
"2 1 2070 5871 13786 XOR";
"2 1 2070 5871 5739 AND";
"2 1 6676 6675 6674 AND";
"2 1 6674 5723 5722 XOR";
"2 1 2051 5722 6672 XOR";
"2 1 2069 5739 6611 XOR";
"2 1 5411 5229 7719 XOR";
"2 1 7720 7719 7718 AND";
"2 1 7718 5229 5228 XOR";
"2 1 1757 5228 7716 XOR";
"2 1 1695 4892 7950 XOR";
"2 1 7950 7949 7948 AND";
"2 1 7948 4892 4891 XOR";
"2 1 5135 4891 7945 XOR";
"2 1 1694 4891 7946 XOR";
"2 1 7947 4891 5167 XOR";
"2 1 5167 5198 7828 XOR";
"2 1 1726 5167 7830 XOR";
"2 1 7830 5198 5410 XOR";
"2 1 5410 5228 7715 XOR";
"2 1 7946 7945 7944 AND";
"2 1 7944 4891 4890 XOR";
"2 1 7943 4890 5166 XOR";
"2 1 5134 4890 7941 XOR";
"2 1 1693 4890 7942 XOR";
"2 1 7942 7941 7940 AND";
"2 1 7940 4890 4889 XOR";
"2 1 7939 4889 5165 XOR";
"2 1 1724 5165 7822 XOR";
"2 1 1692 4889 7938 XOR";
"2 1 5133 4889 7937 XOR";
"2 1 7938 7937 7936 AND";
"2 1 7936 4889 4888 XOR";
"2 1 7935 4888 5164 XOR";
"2 1 1723 5164 7818 XOR";
"2 1 1691 4888 7934 XOR";
"2 1 5132 4888 7933 XOR";
"2 1 7934 7933 7932 AND";
"2 1 1725 5166 7826 XOR";
"2 1 7932 4888 4887 XOR";
"2 1 1690 4887 7930 XOR";
"2 1 7931 4887 5163 XOR";
"2 1 1722 5163 7814 XOR";
"2 1 5131 4887 7929 XOR";
"2 1 7829 7828 7827 AND";
"2 1 7827 5198 5197 XOR";
"2 1 5166 5197 7824 XOR";
"2 1 1725 5197 7825 XOR";
"2 1 7826 5197 5409 XOR";
"2 1 7825 7824 7823 AND";
"2 1 7823 5197 5196 XOR";
"2 1 5165 5196 7820 XOR";
"2 1 1724 5196 7821 XOR";
"2 1 7821 7820 7819 AND";
"2 1 7819 5196 5195 XOR";
"2 1 5164 5195 7816 XOR";
"2 1 7818 5195 5407 XOR";
"2 1 1754 5407 7705 XOR";
"2 1 1723 5195 7817 XOR";
"2 1 7817 7816 7815 AND";
"2 1 7815 5195 5194 XOR";
"2 1 7814 5194 5406 XOR";
"2 1 1753 5406 7701 XOR";
"2 1 1722 5194 7813 XOR";
"2 1 5163 5194 7812 XOR";
"2 1 7813 7812 7811 AND";
"2 1 7811 5194 5193 XOR";
"2 1 1721 5193 7809 XOR";
"2 1 7822 5196 5408 XOR";
"2 1 1757 5410 7717 XOR";
"2 1 7717 5228 5440 XOR";
"2 1 1787 5440 7608 XOR";
"2 1 7608 5257 5469 XOR";
"2 1 1816 5469 7503 XOR";
"2 1 7503 5285 5497 XOR";
"2 1 5469 5285 7501 XOR";
"2 1 7502 7501 7500 AND";
"2 1 7500 5285 5284 XOR";
"2 1 1815 5284 7498 XOR";
"2 1 1844 5497 7402 XOR";
"2 1 7402 5312 5524 XOR";
"2 1 5497 5312 7400 XOR";
"2 1 7401 7400 7399 AND";
"2 1 7399 5312 5311 XOR";
"2 1 1843 5311 7397 XOR";
"2 1 1871 5524 7305 XOR";
"2 1 7305 5338 5550 XOR";
"2 1 5524 5338 7303 XOR";
"2 1 7304 7303 7302 AND";
"2 1 7302 5338 5337 XOR";
"2 1 1870 5337 7300 XOR";
"2 1 1897 5550 7212 XOR";
"2 1 7212 5363 5575 XOR";
"2 1 5550 5363 7210 XOR";
"2 1 7211 7210 7209 AND";
"2 1 7209 5363 5362 XOR";
"2 1 1896 5362 7207 XOR";
"2 1 1922 5575 7123 XOR";
"2 1 7123 5387 5599 XOR";
"2 1 5575 5387 7121 XOR";
"2 1 7122 7121 7120 AND";
"2 1 7120 5387 5386 XOR";
"2 1 1921 5386 7118 XOR";
"2 1 1946 5599 7038 XOR";
"2 1 7038 5622 5770 XOR";
"2 1 5770 5644 6955 XOR";
"2 1 5599 5622 7036 XOR";
"2 1 7037 7036 7035 AND";
"2 1 7035 5622 5621 XOR";
"2 1 1945 5621 7033 XOR";
"2 1 5440 5257 7606 XOR";
"2 1 7607 7606 7605 AND";
"2 1 7605 5257 5256 XOR";
"2 1 6956 6955 6954 AND";
"2 1 1969 5770 6957 XOR";
"2 1 6957 5644 5792 XOR";
"2 1 1991 5792 6880 XOR";
"2 1 6954 5644 5643 XOR";
"2 1 1968 5643 6952 XOR";
"2 1 6880 5665 5813 XOR";
"2 1 2012 5813 6807 XOR";
"2 1 5792 5665 6878 XOR";
"2 1 6879 6878 6877 AND";
"2 1 6877 5665 5664 XOR";
"2 1 1990 5664 6875 XOR";
"2 1 5813 5685 6805 XOR";
"2 1 6807 5685 5833 XOR";
"2 1 5833 5704 6736 XOR";
"2 1 6806 6805 6804 AND";
"2 1 6804 5685 5684 XOR";
"2 1 2011 5684 6802 XOR";
"2 1 2032 5833 6738 XOR";
"2 1 6738 5704 5852 XOR";
"2 1 5852 5722 6671 XOR";
"2 1 6737 6736 6735 AND";
"2 1 6735 5704 5703 XOR";
"2 1 2031 5703 6733 XOR";
"2 1 6672 6671 6670 AND";
"2 1 2051 5852 6673 XOR";
"2 1 6673 5722 5870 XOR";
"2 1 2069 5870 6612 XOR";
"2 1 6670 5722 5721 XOR";
"2 1 2050 5721 6668 XOR";
"2 1 6612 5739 5887 XOR";
"2 1 2086 5887 13787 XOR";
"2 1 2086 5887 5754 AND";
"2 1 2085 5754 6550 XOR";
"2 1 5870 5739 6610 XOR";
"2 1 6611 6610 6609 AND";
"2 1 6609 5739 5738 XOR";
"2 1 2068 5738 6607 XOR";
"2 1 7716 7715 7714 AND";
"2 1 7714 5228 5227 XOR";
"2 1 5409 5227 7711 XOR";
"2 1 1756 5227 7712 XOR";
"2 1 7712 7711 7710 AND";
"2 1 7710 5227 5226 XOR";
"2 1 5408 5226 7707 XOR";
"2 1 1755 5226 7708 XOR";
"2 1 7708 7707 7706 AND";
"2 1 7706 5226 5225 XOR";
"2 1 7705 5225 5437 XOR";
"2 1 1784 5437 7596 XOR";
"2 1 5407 5225 7703 XOR";
"2 1 1754 5225 7704 XOR";
"2 1 7704 7703 7702 AND";
"2 1 7702 5225 5224 XOR";
"2 1 7701 5224 5436 XOR";
"2 1 5406 5224 7699 XOR";
"2 1 1783 5436 7592 XOR";
"2 1 1753 5224 7700 XOR";
"2 1 7700 7699 7698 AND";
"2 1 7698 5224 5223 XOR";
"2 1 1752 5223 7696 XOR";
"2 1 7930 7929 7928 AND";
"2 1 7928 4887 4886 XOR";
"2 1 1689 4886 7926 XOR";
"2 1 5130 4886 7925 XOR";
"2 1 7926 7925 7924 AND";
"2 1 7924 4886 4885 XOR";
"2 1 7923 4885 5161 XOR";
"2 1 1688 4885 7922 XOR";
"2 1 5129 4885 7921 XOR";
"2 1 7922 7921 7920 AND";
"2 1 7920 4885 4884 XOR";
"2 1 7919 4884 5160 XOR";
"2 1 1687 4884 7918 XOR";
"2 1 5128 4884 7917 XOR";
"2 1 1720 5161 7806 XOR";
"2 1 7927 4886 5162 XOR";
"2 1 1721 5162 7810 XOR";
"2 1 7810 5193 5405 XOR";
"2 1 1752 5405 7697 XOR";
"2 1 5162 5193 7808 XOR";
"2 1 7809 7808 7807 AND";
"2 1 7807 5193 5192 XOR";
"2 1 7806 5192 5404 XOR";
"2 1 5405 5223 7695 XOR";
"2 1 7697 5223 5435 XOR";
"2 1 1751 5404 7693 XOR";
"2 1 7918 7917 7916 AND";
"2 1 7916 4884 4883 XOR";
"2 1 5127 4883 7913 XOR";
"2 1 7915 4883 5159 XOR";
"2 1 1686 4883 7914 XOR";
"2 1 7914 7913 7912 AND";
"2 1 7912 4883 4882 XOR";
"2 1 7911 4882 5158 XOR";
"2 1 5126 4882 7909 XOR";
"2 1 1685 4882 7910 XOR";
"2 1 7910 7909 7908 AND";
"2 1 7908 4882 4881 XOR";
"2 1 7907 4881 5157 XOR";
"2 1 1716 5157 7790 XOR";
"2 1 5125 4881 7905 XOR";
"2 1 7696 7695 7694 AND";
"2 1 7694 5223 5222 XOR";
"2 1 5404 5222 7691 XOR";
"2 1 1751 5222 7692 XOR";
"2 1 7692 7691 7690 AND";
"2 1 7690 5222 5221 XOR";
"2 1 1750 5221 7688 XOR";
"2 1 7693 5222 5434 XOR";
"2 1 1684 4881 7906 XOR";
"2 1 7906 7905 7904 AND";
"2 1 7904 4881 4880 XOR";
"2 1 7903 4880 5156 XOR";
"2 1 1715 5156 7786 XOR";
"2 1 1719 5160 7802 XOR";
"2 1 5161 5192 7804 XOR";
"2 1 1781 5434 7584 XOR";
"2 1 1782 5435 7588 XOR";
"2 1 1720 5192 7805 XOR";
"2 1 7805 7804 7803 AND";
"2 1 7803 5192 5191 XOR";
"2 1 1719 5191 7801 XOR";
"2 1 7802 5191 5403 XOR";
"2 1 1750 5403 7689 XOR";
"2 1 7689 5221 5433 XOR";
"2 1 5403 5221 7687 XOR";
"2 1 7688 7687 7686 AND";
"2 1 1718 5159 7798 XOR";
"2 1 5160 5191 7800 XOR";
"2 1 7801 7800 7799 AND";
"2 1 7799 5191 5190 XOR";
"2 1 7798 5190 5402 XOR";
"2 1 1749 5402 7685 XOR";
"2 1 1780 5433 7580 XOR";
"2 1 5124 4880 7901 XOR";
"2 1 1683 4880 7902 XOR";
"2 1 7902 7901 7900 AND";
"2 1 7900 4880 4879 XOR";
"2 1 1682 4879 7898 XOR";
"2 1 5123 4879 7897 XOR";
"2 1 7898 7897 7896 AND";
"2 1 7899 4879 5155 XOR";
"2 1 1714 5155 7782 XOR";
"2 1 7896 4879 4878 XOR";
"2 1 7895 4878 5154 XOR";
"2 1 1681 4878 7894 XOR";
"2 1 5122 4878 7893 XOR";
"2 1 7894 7893 7892 AND";
"2 1 7892 4878 4877 XOR";
"2 1 7891 4877 5153 XOR";
"2 1 5121 4877 7889 XOR";
"2 1 1680 4877 7890 XOR";
"2 1 7890 7889 7888 AND";
"2 1 7888 4877 4876 XOR";
"2 1 7887 4876 5152 XOR";
"2 1 1713 5154 7778 XOR";
"2 1 1712 5153 7774 XOR";
"2 1 1711 5152 7770 XOR";
"2 1 1718 5190 7797 XOR";
"2 1 1717 5158 7794 XOR";
"2 1 5159 5190 7796 XOR";
"2 1 7797 7796 7795 AND";
"2 1 7795 5190 5189 XOR";
"2 1 7794 5189 5401 XOR";
"2 1 1748 5401 7681 XOR";
"2 1 1717 5189 7793 XOR";
"2 1 5158 5189 7792 XOR";
"2 1 7793 7792 7791 AND";
"2 1 7791 5189 5188 XOR";
"2 1 5157 5188 7788 XOR";
"2 1 1716 5188 7789 XOR";
"2 1 7789 7788 7787 AND";
"2 1 7787 5188 5187 XOR";
"2 1 7786 5187 5399 XOR";
"2 1 1715 5187 7785 XOR";
"2 1 5156 5187 7784 XOR";
"2 1 7785 7784 7783 AND";
"2 1 7783 5187 5186 XOR";
"2 1 5155 5186 7780 XOR";
"2 1 1746 5399 7673 XOR";
"2 1 7782 5186 5398 XOR";
"2 1 1714 5186 7781 XOR";
"2 1 7781 7780 7779 AND";
"2 1 7779 5186 5185 XOR";
"2 1 7778 5185 5397 XOR";
"2 1 1744 5397 7665 XOR";
"2 1 1745 5398 7669 XOR";
"2 1 1713 5185 7777 XOR";
"2 1 5154 5185 7776 XOR";
"2 1 7777 7776 7775 AND";
"2 1 7775 5185 5184 XOR";
"2 1 7774 5184 5396 XOR";
"2 1 1743 5396 7661 XOR";
"2 1 5153 5184 7772 XOR";
"2 1 1712 5184 7773 XOR";
"2 1 7773 7772 7771 AND";
"2 1 7771 5184 5183 XOR";
"2 1 7770 5183 5395 XOR";
"2 1 1742 5395 7657 XOR";
"2 1 7790 5188 5400 XOR";
"2 1 1747 5400 7677 XOR";
"2 1 7686 5221 5220 XOR";
"2 1 7685 5220 5432 XOR";
"2 1 5402 5220 7683 XOR";
"2 1 1749 5220 7684 XOR";
"2 1 7684 7683 7682 AND";
"2 1 7682 5220 5219 XOR";
"2 1 5401 5219 7679 XOR";
"2 1 1748 5219 7680 XOR";
"2 1 7680 7679 7678 AND";
"2 1 7681 5219 5431 XOR";
"2 1 1779 5432 7576 XOR";
"2 1 7678 5219 5218 XOR";
"2 1 7677 5218 5430 XOR";
"2 1 1777 5430 7568 XOR";
"2 1 5400 5218 7675 XOR";
"2 1 1747 5218 7676 XOR";
"2 1 7676 7675 7674 AND";
"2 1 7674 5218 5217 XOR";
"2 1 7673 5217 5429 XOR";
"2 1 1776 5429 7564 XOR";
"2 1 5399 5217 7671 XOR";
"2 1 1746 5217 7672 XOR";
"2 1 7672 7671 7670 AND";
"2 1 7670 5217 5216 XOR";
"2 1 7669 5216 5428 XOR";
"2 1 1775 5428 7560 XOR";
"2 1 5398 5216 7667 XOR";
"2 1 1745 5216 7668 XOR";
"2 1 7668 7667 7666 AND";
"2 1 7666 5216 5215 XOR";
"2 1 7665 5215 5427 XOR";
"2 1 1774 5427 7556 XOR";
"2 1 1744 5215 7664 XOR";
"2 1 5397 5215 7663 XOR";
"2 1 7664 7663 7662 AND";
"2 1 7662 5215 5214 XOR";
"2 1 5396 5214 7659 XOR";
"2 1 1743 5214 7660 XOR";
"2 1 7660 7659 7658 AND";
"2 1 7661 5214 5426 XOR";
"2 1 1778 5431 7572 XOR";
"2 1 7658 5214 5213 XOR";
"2 1 7657 5213 5425 XOR";
"2 1 1772 5425 7548 XOR";
"2 1 1773 5426 7552 XOR";
"2 1 1755 5408 7709 XOR";
"2 1 7709 5226 5438 XOR";
"2 1 1785 5438 7600 XOR";
"2 1 1756 5409 7713 XOR";
"2 1 7713 5227 5439 XOR";
"2 1 5439 5256 7602 XOR";
"2 1 1786 5439 7604 XOR";
"2 1 7604 5256 5468 XOR";
"2 1 1815 5468 7499 XOR";
"2 1 7499 5284 5496 XOR";
"2 1 5468 5284 7497 XOR";
"2 1 7498 7497 7496 AND";
"2 1 7496 5284 5283 XOR";
"2 1 1814 5283 7494 XOR";
"2 1 1843 5496 7398 XOR";
"2 1 7398 5311 5523 XOR";
"2 1 5496 5311 7396 XOR";
"2 1 7397 7396 7395 AND";
"2 1 7395 5311 5310 XOR";
"2 1 1842 5310 7393 XOR";
"2 1 5523 5337 7299 XOR";
"2 1 1870 5523 7301 XOR";
"2 1 7301 5337 5549 XOR";
"2 1 7300 7299 7298 AND";
"2 1 7298 5337 5336 XOR";
"2 1 1869 5336 7296 XOR";
"2 1 1896 5549 7208 XOR";
"2 1 7208 5362 5574 XOR";
"2 1 5549 5362 7206 XOR";
"2 1 7207 7206 7205 AND";
"2 1 7205 5362 5361 XOR";
"2 1 1895 5361 7203 XOR";
"2 1 1921 5574 7119 XOR";
"2 1 7119 5386 5598 XOR";
"2 1 5574 5386 7117 XOR";
"2 1 7118 7117 7116 AND";
"2 1 7116 5386 5385 XOR";
"2 1 1920 5385 7114 XOR";
"2 1 1945 5598 7034 XOR";
"2 1 7034 5621 5769 XOR";
"2 1 1968 5769 6953 XOR";
"2 1 5598 5621 7032 XOR";
"2 1 7033 7032 7031 AND";
"2 1 7031 5621 5620 XOR";
"2 1 1944 5620 7029 XOR";
"2 1 6953 5643 5791 XOR";
"2 1 5769 5643 6951 XOR";
"2 1 6952 6951 6950 AND";
"2 1 6950 5643 5642 XOR";
"2 1 1967 5642 6948 XOR";
"2 1 1990 5791 6876 XOR";
"2 1 6876 5664 5812 XOR";
"2 1 5791 5664 6874 XOR";
"2 1 6875 6874 6873 AND";
"2 1 6873 5664 5663 XOR";
"2 1 1989 5663 6871 XOR";
"2 1 2011 5812 6803 XOR";
"2 1 6803 5684 5832 XOR";
"2 1 5832 5703 6732 XOR";
"2 1 5812 5684 6801 XOR";
"2 1 6802 6801 6800 AND";
"2 1 6800 5684 5683 XOR";
"2 1 2010 5683 6798 XOR";
"2 1 2031 5832 6734 XOR";
"2 1 6734 5703 5851 XOR";
"2 1 5851 5721 6667 XOR";
"2 1 6733 6732 6731 AND";
"2 1 6731 5703 5702 XOR";
"2 1 2030 5702 6729 XOR";
"2 1 2050 5851 6669 XOR";
"2 1 6669 5721 5869 XOR";
"2 1 5869 5738 6606 XOR";
"2 1 2068 5869 6608 XOR";
"2 1 6608 5738 5886 XOR";
"2 1 5886 5754 6549 XOR";
"2 1 6550 6549 6548 AND";
"2 1 6548 5754 5753 XOR";
"2 1 2084 5753 6546 XOR";
"2 1 6668 6667 6666 AND";
"2 1 6666 5721 5720 XOR";
"2 1 2049 5720 6664 XOR";
"2 1 6607 6606 6605 AND";
"2 1 6605 5738 5737 XOR";
"2 1 2067 5737 6603 XOR";
"2 1 2085 5886 6551 XOR";
"2 1 6551 5754 5902 XOR";
"2 1 2101 5902 13788 XOR";
"2 1 2101 5902 5916 AND";
"2 1 2100 5916 6493 XOR";
"2 1 1786 5256 7603 XOR";
"2 1 7603 7602 7601 AND";
"2 1 7601 5256 5255 XOR";
"2 1 5438 5255 7598 XOR";
"2 1 7600 5255 5467 XOR";
"2 1 1814 5467 7495 XOR";
"2 1 7495 5283 5495 XOR";
"2 1 5467 5283 7493 XOR";
"2 1 7494 7493 7492 AND";
"2 1 7492 5283 5282 XOR";
"2 1 1813 5282 7490 XOR";
"2 1 1842 5495 7394 XOR";
"2 1 7394 5310 5522 XOR";
"2 1 5495 5310 7392 XOR";
"2 1 7393 7392 7391 AND";
"2 1 7391 5310 5309 XOR";
"2 1 1841 5309 7389 XOR";
"2 1 1869 5522 7297 XOR";
"2 1 7297 5336 5548 XOR";
"2 1 5522 5336 7295 XOR";
"2 1 7296 7295 7294 AND";
"2 1 7294 5336 5335 XOR";
"2 1 1868 5335 7292 XOR";
"2 1 1895 5548 7204 XOR";
"2 1 7204 5361 5573 XOR";
"2 1 5548 5361 7202 XOR";
"2 1 7203 7202 7201 AND";
"2 1 7201 5361 5360 XOR";
"2 1 1894 5360 7199 XOR";
"2 1 1920 5573 7115 XOR";
"2 1 7115 5385 5597 XOR";
"2 1 5573 5385 7113 XOR";
"2 1 7114 7113 7112 AND";
"2 1 7112 5385 5384 XOR";
"2 1 1919 5384 7110 XOR";
"2 1 1944 5597 7030 XOR";
"2 1 7030 5620 5768 XOR";
"2 1 5597 5620 7028 XOR";
"2 1 7029 7028 7027 AND";
"2 1 7027 5620 5619 XOR";
"2 1 1943 5619 7025 XOR";
"2 1 5768 5642 6947 XOR";
"2 1 6948 6947 6946 AND";
"2 1 6946 5642 5641 XOR";
"2 1 1966 5641 6944 XOR";
"2 1 1785 5255 7599 XOR";
"2 1 7599 7598 7597 AND";
"2 1 7597 5255 5254 XOR";
"2 1 5437 5254 7594 XOR";
"2 1 7596 5254 5466 XOR";
"2 1 1813 5466 7491 XOR";
"2 1 5466 5282 7489 XOR";
"2 1 7491 5282 5494 XOR";
"2 1 1841 5494 7390 XOR";
"2 1 7390 5309 5521 XOR";
"2 1 5494 5309 7388 XOR";
"2 1 7389 7388 7387 AND";
"2 1 7387 5309 5308 XOR";
"2 1 1840 5308 7385 XOR";
"2 1 1868 5521 7293 XOR";
"2 1 7293 5335 5547 XOR";
"2 1 5521 5335 7291 XOR";
"2 1 7292 7291 7290 AND";
"2 1 7290 5335 5334 XOR";
"2 1 1867 5334 7288 XOR";
"2 1 7490 7489 7488 AND";
"2 1 7488 5282 5281 XOR";
"2 1 1812 5281 7486 XOR";
"2 1 1894 5547 7200 XOR";
"2 1 7200 5360 5572 XOR";
"2 1 5547 5360 7198 XOR";
"2 1 7199 7198 7197 AND";
"2 1 7197 5360 5359 XOR";
"2 1 1893 5359 7195 XOR";
"2 1 1784 5254 7595 XOR";
"2 1 7595 7594 7593 AND";
"2 1 7593 5254 5253 XOR";
"2 1 1783 5253 7591 XOR";
"2 1 7592 5253 5465 XOR";
"2 1 5465 5281 7485 XOR";
"2 1 1812 5465 7487 XOR";
"2 1 7487 5281 5493 XOR";
"2 1 1840 5493 7386 XOR";
"2 1 7386 5308 5520 XOR";
"2 1 5493 5308 7384 XOR";
"2 1 7385 7384 7383 AND";
"2 1 7383 5308 5307 XOR";
"2 1 1839 5307 7381 XOR";
"2 1 1867 5520 7289 XOR";
"2 1 7486 7485 7484 AND";
"2 1 7484 5281 5280 XOR";
"2 1 1811 5280 7482 XOR";
"2 1 7289 5334 5546 XOR";
"2 1 5520 5334 7287 XOR";
"2 1 7288 7287 7286 AND";
"2 1 7286 5334 5333 XOR";
"2 1 1866 5333 7284 XOR";
"2 1 1893 5546 7196 XOR";
"2 1 7196 5359 5571 XOR";
"2 1 5546 5359 7194 XOR";
"2 1 7195 7194 7193 AND";
"2 1 7193 5359 5358 XOR";
"2 1 1892 5358 7191 XOR";
"2 1 5436 5253 7590 XOR";
"2 1 7591 7590 7589 AND";
"2 1 7589 5253 5252 XOR";
"2 1 1919 5572 7111 XOR";
"2 1 7111 5384 5596 XOR";
"2 1 5572 5384 7109 XOR";
"2 1 7110 7109 7108 AND";
"2 1 7108 5384 5383 XOR";
"2 1 1918 5383 7106 XOR";
"2 1 1918 5571 7107 XOR";
"2 1 7107 5383 5595 XOR";
"2 1 5571 5383 7105 XOR";
"2 1 7106 7105 7104 AND";
"2 1 7104 5383 5382 XOR";
"2 1 1917 5382 7102 XOR";
"2 1 1782 5252 7587 XOR";
"2 1 7588 5252 5464 XOR";
"2 1 1811 5464 7483 XOR";
"2 1 7483 5280 5492 XOR";
"2 1 1839 5492 7382 XOR";
"2 1 7382 5307 5519 XOR";
"2 1 5492 5307 7380 XOR";
"2 1 7381 7380 7379 AND";
"2 1 7379 5307 5306 XOR";
"2 1 1838 5306 7377 XOR";
"2 1 1866 5519 7285 XOR";
"2 1 7285 5333 5545 XOR";
"2 1 5519 5333 7283 XOR";
"2 1 7284 7283 7282 AND";
"2 1 7282 5333 5332 XOR";
"2 1 1865 5332 7280 XOR";
"2 1 5464 5280 7481 XOR";
"2 1 7482 7481 7480 AND";
"2 1 7480 5280 5279 XOR";
"2 1 1810 5279 7478 XOR";
"2 1 1892 5545 7192 XOR";
"2 1 7192 5358 5570 XOR";
"2 1 5545 5358 7190 XOR";
"2 1 7191 7190 7189 AND";
"2 1 7189 5358 5357 XOR";
"2 1 1891 5357 7187 XOR";
"2 1 1917 5570 7103 XOR";
"2 1 7103 5382 5594 XOR";
"2 1 5570 5382 7101 XOR";
"2 1 7102 7101 7100 AND";
"2 1 7100 5382 5381 XOR";
"2 1 1916 5381 7098 XOR";
"2 1 1943 5596 7026 XOR";
"2 1 7026 5619 5767 XOR";
"2 1 1942 5595 7022 XOR";
"2 1 1941 5594 7018 XOR";
"2 1 5596 5619 7024 XOR";
"2 1 7025 7024 7023 AND";
"2 1 7023 5619 5618 XOR";
"2 1 7022 5618 5766 XOR";
"2 1 1942 5618 7021 XOR";
"2 1 5595 5618 7020 XOR";
"2 1 7021 7020 7019 AND";
"2 1 7019 5618 5617 XOR";
"2 1 7018 5617 5765 XOR";
"2 1 1941 5617 7017 XOR";
"2 1 5594 5617 7016 XOR";
"2 1 7017 7016 7015 AND";
"2 1 7015 5617 5616 XOR";
"2 1 1940 5616 7013 XOR";
"2 1 5435 5252 7586 XOR";
"2 1 7587 7586 7585 AND";
"2 1 7585 5252 5251 XOR";
"2 1 5434 5251 7582 XOR";
"2 1 7584 5251 5463 XOR";
"2 1 5463 5279 7477 XOR";
"2 1 1810 5463 7479 XOR";
"2 1 7479 5279 5491 XOR";
"2 1 1838 5491 7378 XOR";
"2 1 7378 5306 5518 XOR";
"2 1 5491 5306 7376 XOR";
"2 1 7377 7376 7375 AND";
"2 1 7375 5306 5305 XOR";
"2 1 1837 5305 7373 XOR";
"2 1 5518 5332 7279 XOR";
"2 1 1865 5518 7281 XOR";
"2 1 7281 5332 5544 XOR";
"2 1 7280 7279 7278 AND";
"2 1 7278 5332 5331 XOR";
"2 1 1864 5331 7276 XOR";
"2 1 7478 7477 7476 AND";
"2 1 7476 5279 5278 XOR";
"2 1 1809 5278 7474 XOR";
"2 1 1891 5544 7188 XOR";
"2 1 7188 5357 5569 XOR";
"2 1 5544 5357 7186 XOR";
"2 1 7187 7186 7185 AND";
"2 1 7185 5357 5356 XOR";
"2 1 1890 5356 7183 XOR";
"2 1 1916 5569 7099 XOR";
"2 1 7099 5381 5593 XOR";
"2 1 5569 5381 7097 XOR";
"2 1 7098 7097 7096 AND";
"2 1 7096 5381 5380 XOR";
"2 1 1915 5380 7094 XOR";
"2 1 1940 5593 7014 XOR";
"2 1 7014 5616 5764 XOR";
"2 1 5593 5616 7012 XOR";
"2 1 7013 7012 7011 AND";
"2 1 7011 5616 5615 XOR";
"2 1 1939 5615 7009 XOR";
"2 1 5767 5641 6943 XOR";
"2 1 1966 5767 6945 XOR";
"2 1 6945 5641 5789 XOR";
"2 1 6944 6943 6942 AND";
"2 1 6942 5641 5640 XOR";
"2 1 5766 5640 6939 XOR";
"2 1 1965 5766 6941 XOR";
"2 1 6941 5640 5788 XOR";
"2 1 1965 5640 6940 XOR";
"2 1 6940 6939 6938 AND";
"2 1 6938 5640 5639 XOR";
"2 1 5765 5639 6935 XOR";
"2 1 1964 5765 6937 XOR";
"2 1 6937 5639 5787 XOR";
"2 1 1986 5787 6860 XOR";
"2 1 1964 5639 6936 XOR";
"2 1 6936 6935 6934 AND";
"2 1 6934 5639 5638 XOR";
"2 1 1963 5764 6933 XOR";
"2 1 6933 5638 5786 XOR";
"2 1 5764 5638 6931 XOR";
"2 1 1963 5638 6932 XOR";
"2 1 6932 6931 6930 AND";
"2 1 6930 5638 5637 XOR";
"2 1 1962 5637 6928 XOR";
"2 1 1781 5251 7583 XOR";
"2 1 7583 7582 7581 AND";
"2 1 7581 5251 5250 XOR";
"2 1 7580 5250 5462 XOR";
"2 1 5462 5278 7473 XOR";
"2 1 1809 5462 7475 XOR";
"2 1 7474 7473 7472 AND";
"2 1 7472 5278 5277 XOR";
"2 1 1808 5277 7470 XOR";
"2 1 7475 5278 5490 XOR";
"2 1 1837 5490 7374 XOR";
"2 1 7374 5305 5517 XOR";
"2 1 5490 5305 7372 XOR";
"2 1 7373 7372 7371 AND";
"2 1 7371 5305 5304 XOR";
"2 1 1864 5517 7277 XOR";
"2 1 7277 5331 5543 XOR";
"2 1 5517 5331 7275 XOR";
"2 1 7276 7275 7274 AND";
"2 1 7274 5331 5330 XOR";
"2 1 1863 5330 7272 XOR";
"2 1 1890 5543 7184 XOR";
"2 1 7184 5356 5568 XOR";
"2 1 5543 5356 7182 XOR";
"2 1 7183 7182 7181 AND";
"2 1 7181 5356 5355 XOR";
"2 1 1889 5355 7179 XOR";
"2 1 1915 5568 7095 XOR";
"2 1 7095 5380 5592 XOR";
"2 1 5568 5380 7093 XOR";
"2 1 7094 7093 7092 AND";
"2 1 7092 5380 5379 XOR";
"2 1 1914 5379 7090 XOR";
"2 1 1939 5592 7010 XOR";
"2 1 7010 5615 5763 XOR";
"2 1 5592 5615 7008 XOR";
"2 1 7009 7008 7007 AND";
"2 1 7007 5615 5614 XOR";
"2 1 1938 5614 7005 XOR";
"2 1 5763 5637 6927 XOR";
"2 1 1962 5763 6929 XOR";
"2 1 6929 5637 5785 XOR";
"2 1 1984 5785 6852 XOR";
"2 1 6928 6927 6926 AND";
"2 1 6926 5637 5636 XOR";
"2 1 1961 5636 6924 XOR";
"2 1 5433 5250 7578 XOR";
"2 1 1988 5789 6868 XOR";
"2 1 1987 5788 6864 XOR";
"2 1 1985 5786 6856 XOR";
"2 1 1780 5250 7579 XOR";
"2 1 7579 7578 7577 AND";
"2 1 7577 5250 5249 XOR";
"2 1 1779 5249 7575 XOR";
"2 1 5432 5249 7574 XOR";
"2 1 1967 5768 6949 XOR";
"2 1 6949 5642 5790 XOR";
"2 1 5790 5663 6870 XOR";
"2 1 6871 6870 6869 AND";
"2 1 1989 5790 6872 XOR";
"2 1 6872 5663 5811 XOR";
"2 1 6869 5663 5662 XOR";
"2 1 5789 5662 6866 XOR";
"2 1 6868 5662 5810 XOR";
"2 1 2009 5810 6795 XOR";
"2 1 1988 5662 6867 XOR";
"2 1 6867 6866 6865 AND";
"2 1 6865 5662 5661 XOR";
"2 1 6864 5661 5809 XOR";
"2 1 1987 5661 6863 XOR";
"2 1 5788 5661 6862 XOR";
"2 1 6863 6862 6861 AND";
"2 1 6861 5661 5660 XOR";
"2 1 6860 5660 5808 XOR";
"2 1 1986 5660 6859 XOR";
"2 1 5787 5660 6858 XOR";
"2 1 6859 6858 6857 AND";
"2 1 6857 5660 5659 XOR";
"2 1 1985 5659 6855 XOR";
"2 1 6856 5659 5807 XOR";
"2 1 5786 5659 6854 XOR";
"2 1 6855 6854 6853 AND";
"2 1 6853 5659 5658 XOR";
"2 1 1984 5658 6851 XOR";
"2 1 6852 5658 5806 XOR";
"2 1 5785 5658 6850 XOR";
"2 1 6851 6850 6849 AND";
"2 1 6849 5658 5657 XOR";
"2 1 1983 5657 6847 XOR";
"2 1 2008 5809 6791 XOR";
"2 1 2010 5811 6799 XOR";
"2 1 6799 5683 5831 XOR";
"2 1 2030 5831 6730 XOR";
"2 1 5811 5683 6797 XOR";
"2 1 6798 6797 6796 AND";
"2 1 6796 5683 5682 XOR";
"2 1 6795 5682 5830 XOR";
"2 1 2029 5830 6726 XOR";
"2 1 2009 5682 6794 XOR";
"2 1 5810 5682 6793 XOR";
"2 1 6794 6793 6792 AND";
"2 1 6792 5682 5681 XOR";
"2 1 2008 5681 6790 XOR";
"2 1 6791 5681 5829 XOR";
"2 1 2028 5829 6722 XOR";
"2 1 5809 5681 6789 XOR";
"2 1 6790 6789 6788 AND";
"2 1 6788 5681 5680 XOR";
"2 1 2007 5808 6787 XOR";
"2 1 6787 5680 5828 XOR";
"2 1 2007 5680 6786 XOR";
"2 1 5808 5680 6785 XOR";
"2 1 6786 6785 6784 AND";
"2 1 6784 5680 5679 XOR";
"2 1 5807 5679 6781 XOR";
"2 1 2006 5679 6782 XOR";
"2 1 6782 6781 6780 AND";
"2 1 6780 5679 5678 XOR";
"2 1 2005 5806 6779 XOR";
"2 1 6779 5678 5826 XOR";
"2 1 2005 5678 6778 XOR";
"2 1 5806 5678 6777 XOR";
"2 1 6778 6777 6776 AND";
"2 1 6776 5678 5677 XOR";
"2 1 2004 5677 6774 XOR";
"2 1 5831 5702 6728 XOR";
"2 1 6729 6728 6727 AND";
"2 1 6727 5702 5701 XOR";
"2 1 6730 5702 5850 XOR";
"2 1 6726 5701 5849 XOR";
"2 1 5830 5701 6724 XOR";
"2 1 2029 5701 6725 XOR";
"2 1 6725 6724 6723 AND";
"2 1 6723 5701 5700 XOR";
"2 1 6722 5700 5848 XOR";
"2 1 2028 5700 6721 XOR";
"2 1 2027 5828 6718 XOR";
"2 1 5829 5700 6720 XOR";
"2 1 6721 6720 6719 AND";
"2 1 6719 5700 5699 XOR";
"2 1 2027 5699 6717 XOR";
"2 1 6718 5699 5847 XOR";
"2 1 2046 5847 6653 XOR";
"2 1 5828 5699 6716 XOR";
"2 1 6717 6716 6715 AND";
"2 1 6715 5699 5698 XOR";
"2 1 2026 5698 6713 XOR";
"2 1 2025 5826 6710 XOR";
"2 1 5850 5720 6663 XOR";
"2 1 6664 6663 6662 AND";
"2 1 7576 5249 5461 XOR";
"2 1 5461 5277 7469 XOR";
"2 1 7470 7469 7468 AND";
"2 1 7468 5277 5276 XOR";
"2 1 1807 5276 7466 XOR";
"2 1 1808 5461 7471 XOR";
"2 1 7471 5277 5489 XOR";
"2 1 1836 5489 7370 XOR";
"2 1 7370 5304 5516 XOR";
"2 1 1863 5516 7273 XOR";
"2 1 7273 5330 5542 XOR";
"2 1 5516 5330 7271 XOR";
"2 1 7272 7271 7270 AND";
"2 1 7270 5330 5329 XOR";
"2 1 1862 5329 7268 XOR";
"2 1 1889 5542 7180 XOR";
"2 1 7180 5355 5567 XOR";
"2 1 5542 5355 7178 XOR";
"2 1 7179 7178 7177 AND";
"2 1 7177 5355 5354 XOR";
"2 1 1888 5354 7175 XOR";
"2 1 1914 5567 7091 XOR";
"2 1 7091 5379 5591 XOR";
"2 1 5591 5614 7004 XOR";
"2 1 5567 5379 7089 XOR";
"2 1 7090 7089 7088 AND";
"2 1 7088 5379 5378 XOR";
"2 1 1913 5378 7086 XOR";
"2 1 1938 5591 7006 XOR";
"2 1 7006 5614 5762 XOR";
"2 1 7005 7004 7003 AND";
"2 1 7003 5614 5613 XOR";
"2 1 1937 5613 7001 XOR";
"2 1 5762 5636 6923 XOR";
"2 1 1961 5762 6925 XOR";
"2 1 6925 5636 5784 XOR";
"2 1 6924 6923 6922 AND";
"2 1 6922 5636 5635 XOR";
"2 1 1960 5635 6920 XOR";
"2 1 1983 5784 6848 XOR";
"2 1 6848 5657 5805 XOR";
"2 1 2004 5805 6775 XOR";
"2 1 5784 5657 6846 XOR";
"2 1 6847 6846 6845 AND";
"2 1 6845 5657 5656 XOR";
"2 1 1982 5656 6843 XOR";
"2 1 5489 5304 7368 XOR";
"2 1 6775 5677 5825 XOR";
"2 1 5805 5677 6773 XOR";
"2 1 6774 6773 6772 AND";
"2 1 6772 5677 5676 XOR";
"2 1 2003 5676 6770 XOR";
"2 1 2024 5825 6706 XOR";
"2 1 2006 5807 6783 XOR";
"2 1 6783 5679 5827 XOR";
"2 1 2026 5827 6714 XOR";
"2 1 6714 5698 5846 XOR";
"2 1 5827 5698 6712 XOR";
"2 1 6713 6712 6711 AND";
"2 1 6711 5698 5697 XOR";
"2 1 2025 5697 6709 XOR";
"2 1 6710 5697 5845 XOR";
"2 1 5826 5697 6708 XOR";
"2 1 6709 6708 6707 AND";
"2 1 6707 5697 5696 XOR";
"2 1 2024 5696 6705 XOR";
"2 1 6706 5696 5844 XOR";
"2 1 2043 5844 6641 XOR";
"2 1 5825 5696 6704 XOR";
"2 1 6705 6704 6703 AND";
"2 1 6703 5696 5695 XOR";
"2 1 2023 5695 6701 XOR";
"2 1 6662 5720 5719 XOR";
"2 1 2048 5719 6660 XOR";
"2 1 5849 5719 6659 XOR";
"2 1 2049 5850 6665 XOR";
"2 1 6665 5720 5868 XOR";
"2 1 5868 5737 6602 XOR";
"2 1 6603 6602 6601 AND";
"2 1 6601 5737 5736 XOR";
"2 1 2066 5736 6599 XOR";
"2 1 2048 5849 6661 XOR";
"2 1 6661 5719 5867 XOR";
"2 1 5867 5736 6598 XOR";
"2 1 6599 6598 6597 AND";
"2 1 6597 5736 5735 XOR";
"2 1 6660 6659 6658 AND";
"2 1 6658 5719 5718 XOR";
"2 1 5848 5718 6655 XOR";
"2 1 2047 5718 6656 XOR";
"2 1 6656 6655 6654 AND";
"2 1 6654 5718 5717 XOR";
"2 1 6653 5717 5865 XOR";
"2 1 2046 5717 6652 XOR";
"2 1 5847 5717 6651 XOR";
"2 1 6652 6651 6650 AND";
"2 1 6650 5717 5716 XOR";
"2 1 2044 5845 6645 XOR";
"2 1 2045 5846 6649 XOR";
"2 1 6649 5716 5864 XOR";
"2 1 2045 5716 6648 XOR";
"2 1 5846 5716 6647 XOR";
"2 1 6648 6647 6646 AND";
"2 1 6646 5716 5715 XOR";
"2 1 2044 5715 6644 XOR";
"2 1 6645 5715 5863 XOR";
"2 1 5845 5715 6643 XOR";
"2 1 6644 6643 6642 AND";
"2 1 6642 5715 5714 XOR";
"2 1 6641 5714 5862 XOR";
"2 1 2061 5862 6580 XOR";
"2 1 2043 5714 6640 XOR";
"2 1 5844 5714 6639 XOR";
"2 1 6640 6639 6638 AND";
"2 1 6638 5714 5713 XOR";
"2 1 2042 5713 6636 XOR";
"2 1 7575 7574 7573 AND";
"2 1 7573 5249 5248 XOR";
"2 1 7572 5248 5460 XOR";
"2 1 5460 5276 7465 XOR";
"2 1 1778 5248 7571 XOR";
"2 1 5431 5248 7570 XOR";
"2 1 7571 7570 7569 AND";
"2 1 7569 5248 5247 XOR";
"2 1 5430 5247 7566 XOR";
"2 1 1777 5247 7567 XOR";
"2 1 7567 7566 7565 AND";
"2 1 7565 5247 5246 XOR";
"2 1 1776 5246 7563 XOR";
"2 1 7564 5246 5458 XOR";
"2 1 5429 5246 7562 XOR";
"2 1 1805 5458 7459 XOR";
"2 1 7563 7562 7561 AND";
"2 1 7561 5246 5245 XOR";
"2 1 1775 5245 7559 XOR";
"2 1 5428 5245 7558 XOR";
"2 1 7559 7558 7557 AND";
"2 1 7557 5245 5244 XOR";
"2 1 1774 5244 7555 XOR";
"2 1 7556 5244 5456 XOR";
"2 1 5427 5244 7554 XOR";
"2 1 7555 7554 7553 AND";
"2 1 1803 5456 7451 XOR";
"2 1 7553 5244 5243 XOR";
"2 1 1773 5243 7551 XOR";
"2 1 7552 5243 5455 XOR";
"2 1 5426 5243 7550 XOR";
"2 1 7551 7550 7549 AND";
"2 1 7549 5243 5242 XOR";
"2 1 7548 5242 5454 XOR";
"2 1 1801 5454 7443 XOR";
"2 1 1807 5460 7467 XOR";
"2 1 7467 5276 5488 XOR";
"2 1 1835 5488 7366 XOR";
"2 1 1802 5455 7447 XOR";
"2 1 7466 7465 7464 AND";
"2 1 7464 5276 5275 XOR";
"2 1 1806 5275 7462 XOR";
"2 1 2067 5868 6604 XOR";
"2 1 6604 5737 5885 XOR";
"2 1 2084 5885 6547 XOR";
"2 1 6547 5753 5901 XOR";
"2 1 5885 5753 6545 XOR";
"2 1 6546 6545 6544 AND";
"2 1 2100 5901 6494 XOR";
"2 1 5901 5916 6492 XOR";
"2 1 6493 6492 6491 AND";
"2 1 6491 5916 5915 XOR";
"2 1 6544 5753 5752 XOR";
"2 1 2083 5752 6542 XOR";
"2 1 2099 5915 6489 XOR";
"2 1 2066 5867 6600 XOR";
"2 1 6600 5736 5884 XOR";
"2 1 2083 5884 6543 XOR";
"2 1 6543 5752 5900 XOR";
"2 1 2099 5900 6490 XOR";
"2 1 5884 5752 6541 XOR";
"2 1 6542 6541 6540 AND";
"2 1 5900 5915 6488 XOR";
"2 1 6490 5915 5999 XOR";
"2 1 6540 5752 5751 XOR";
"2 1 2082 5751 6538 XOR";
"2 1 2065 5735 6595 XOR";
"2 1 2064 5865 6592 XOR";
"2 1 2063 5864 6588 XOR";
"2 1 2062 5863 6584 XOR";
"2 1 2047 5848 6657 XOR";
"2 1 6657 5718 5866 XOR";
"2 1 5866 5735 6594 XOR";
"2 1 2065 5866 6596 XOR";
"2 1 6595 6594 6593 AND";
"2 1 6593 5735 5734 XOR";
"2 1 2064 5734 6591 XOR";
"2 1 5865 5734 6590 XOR";
"2 1 6591 6590 6589 AND";
"2 1 6589 5734 5733 XOR";
"2 1 5864 5733 6586 XOR";
"2 1 2063 5733 6587 XOR";
"2 1 6587 6586 6585 AND";
"2 1 6596 5735 5883 XOR";
"2 1 5883 5751 6537 XOR";
"2 1 2082 5883 6539 XOR";
"2 1 6539 5751 5899 XOR";
"2 1 2098 5899 6486 XOR";
"2 1 6538 6537 6536 AND";
"2 1 6536 5751 5750 XOR";
"2 1 2081 5750 6534 XOR";
"2 1 6592 5734 5882 XOR";
"2 1 2081 5882 6535 XOR";
"2 1 6535 5750 5898 XOR";
"2 1 2097 5898 6482 XOR";
"2 1 6585 5733 5732 XOR";
"2 1 2062 5732 6583 XOR";
"2 1 5863 5732 6582 XOR";
"2 1 6583 6582 6581 AND";
"2 1 6581 5732 5731 XOR";
"2 1 5862 5731 6578 XOR";
"2 1 6584 5732 5880 XOR";
"2 1 2079 5880 6527 XOR";
"2 1 6588 5733 5881 XOR";
"2 1 2080 5881 6531 XOR";
"2 1 6580 5731 5879 XOR";
"2 1 2078 5879 6523 XOR";
"2 1 2061 5731 6579 XOR";
"2 1 6579 6578 6577 AND";
"2 1 6577 5731 5730 XOR";
"2 1 2060 5730 6575 XOR";
"2 1 5882 5750 6533 XOR";
"2 1 6534 6533 6532 AND";
"2 1 6532 5750 5749 XOR";
"2 1 5881 5749 6529 XOR";
"2 1 6531 5749 5897 XOR";
"2 1 2096 5897 6478 XOR";
"2 1 2080 5749 6530 XOR";
"2 1 6530 6529 6528 AND";
"2 1 6528 5749 5748 XOR";
"2 1 6527 5748 5896 XOR";
"2 1 2095 5896 6474 XOR";
"2 1 5880 5748 6525 XOR";
"2 1 2079 5748 6526 XOR";
"2 1 6526 6525 6524 AND";
"2 1 6524 5748 5747 XOR";
"2 1 6523 5747 5895 XOR";
"2 1 2094 5895 6470 XOR";
"2 1 2078 5747 6522 XOR";
"2 1 5879 5747 6521 XOR";
"2 1 6522 6521 6520 AND";
"2 1 6520 5747 5746 XOR";
"2 1 2077 5746 6518 XOR";
"2 1 6494 5916 6000 XOR";
"2 1 2115 6000 13789 XOR";
"2 1 2115 6000 5929 AND";
"2 1 5999 5929 6439 XOR";
"2 1 2114 5929 6440 XOR";
"2 1 6440 6439 6438 AND";
"2 1 6438 5929 5928 XOR";
"2 1 2113 5928 6436 XOR";
"2 1 6489 6488 6487 AND";
"2 1 6487 5915 5914 XOR";
"2 1 6486 5914 5998 XOR";
"2 1 2098 5914 6485 XOR";
"2 1 5998 5928 6435 XOR";
"2 1 6436 6435 6434 AND";
"2 1 2113 5998 6437 XOR";
"2 1 6434 5928 5927 XOR";
"2 1 2112 5927 6432 XOR";
"2 1 5899 5914 6484 XOR";
"2 1 6437 5928 6012 XOR";
"2 1 2127 6012 6392 XOR";
"2 1 6485 6484 6483 AND";
"2 1 6483 5914 5913 XOR";
"2 1 6482 5913 5997 XOR";
"2 1 5898 5913 6480 XOR";
"2 1 2097 5913 6481 XOR";
"2 1 6481 6480 6479 AND";
"2 1 6479 5913 5912 XOR";
"2 1 5897 5912 6476 XOR";
"2 1 2096 5912 6477 XOR";
"2 1 6477 6476 6475 AND";
"2 1 6475 5912 5911 XOR";
"2 1 5896 5911 6472 XOR";
"2 1 6474 5911 5995 XOR";
"2 1 2095 5911 6473 XOR";
"2 1 6473 6472 6471 AND";
"2 1 6471 5911 5910 XOR";
"2 1 5895 5910 6468 XOR";
"2 1 6470 5910 5994 XOR";
"2 1 2109 5994 6421 XOR";
"2 1 6478 5912 5996 XOR";
"2 1 2111 5996 6429 XOR";
"2 1 2110 5995 6425 XOR";
"2 1 5997 5927 6431 XOR";
"2 1 6432 6431 6430 AND";
"2 1 6430 5927 5926 XOR";
"2 1 2111 5926 6428 XOR";
"2 1 5996 5926 6427 XOR";
"2 1 6429 5926 6010 XOR";
"2 1 2125 6010 6384 XOR";
"2 1 2112 5997 6433 XOR";
"2 1 6433 5927 6011 XOR";
"2 1 2126 6011 6388 XOR";
"2 1 2094 5910 6469 XOR";
"2 1 6469 6468 6467 AND";
"2 1 6467 5910 5909 XOR";
"2 1 6428 6427 6426 AND";
"2 1 6426 5926 5925 XOR";
"2 1 5995 5925 6423 XOR";
"2 1 2110 5925 6424 XOR";
"2 1 6424 6423 6422 AND";
"2 1 6422 5925 5924 XOR";
"2 1 5994 5924 6419 XOR";
"2 1 2109 5924 6420 XOR";
"2 1 6421 5924 6008 XOR";
"2 1 2123 6008 6376 XOR";
"2 1 6420 6419 6418 AND";
"2 1 6418 5924 5923 XOR";
"2 1 6425 5925 6009 XOR";
"2 1 2124 6009 6380 XOR";
"2 1 2093 5909 6465 XOR";
"2 1 2108 5923 6416 XOR";
"2 1 2114 5999 6441 XOR";
"2 1 6441 5929 6013 XOR";
"2 1 2128 6013 13790 XOR";
"2 1 2128 6013 5941 AND";
"2 1 6392 5941 6025 XOR";
"2 1 2140 6025 13791 XOR";
"2 1 2127 5941 6391 XOR";
"2 1 6012 5941 6390 XOR";
"2 1 6391 6390 6389 AND";
"2 1 6389 5941 5940 XOR";
"2 1 6011 5940 6386 XOR";
"2 1 2126 5940 6387 XOR";
"2 1 6388 5940 6024 XOR";
"2 1 2139 6024 6347 XOR";
"2 1 6387 6386 6385 AND";
"2 1 6385 5940 5939 XOR";
"2 1 6010 5939 6382 XOR";
"2 1 2125 5939 6383 XOR";
"2 1 6384 5939 6023 XOR";
"2 1 2138 6023 6343 XOR";
"2 1 6383 6382 6381 AND";
"2 1 6381 5939 5938 XOR";
"2 1 2124 5938 6379 XOR";
"2 1 6009 5938 6378 XOR";
"2 1 6379 6378 6377 AND";
"2 1 6377 5938 5937 XOR";
"2 1 6376 5937 6021 XOR";
"2 1 2123 5937 6375 XOR";
"2 1 6008 5937 6374 XOR";
"2 1 6375 6374 6373 AND";
"2 1 2136 6021 6335 XOR";
"2 1 2140 6025 5952 AND";
"2 1 6347 5952 6036 XOR";
"2 1 2151 6036 13792 XOR";
"2 1 2151 6036 5962 AND";
"2 1 2150 5962 6305 XOR";
"2 1 6024 5952 6345 XOR";
"2 1 6380 5938 6022 XOR";
"2 1 2137 6022 6339 XOR";
"2 1 6373 5937 5936 XOR";
"2 1 2122 5936 6371 XOR";
"2 1 2139 5952 6346 XOR";
"2 1 6346 6345 6344 AND";
"2 1 6344 5952 5951 XOR";
"2 1 2138 5951 6342 XOR";
"2 1 6023 5951 6341 XOR";
"2 1 6342 6341 6340 AND";
"2 1 6340 5951 5950 XOR";
"2 1 6022 5950 6337 XOR";
"2 1 6339 5950 6034 XOR";
"2 1 2149 6034 6302 XOR";
"2 1 2137 5950 6338 XOR";
"2 1 6338 6337 6336 AND";
"2 1 6336 5950 5949 XOR";
"2 1 6021 5949 6333 XOR";
"2 1 2136 5949 6334 XOR";
"2 1 6334 6333 6332 AND";
"2 1 6332 5949 5948 XOR";
"2 1 2135 5948 6330 XOR";
"2 1 6335 5949 6033 XOR";
"2 1 2148 6033 6298 XOR";
"2 1 6343 5951 6035 XOR";
"2 1 2150 6035 6306 XOR";
"2 1 6306 5962 6046 XOR";
"2 1 2161 6046 5971 AND";
"2 1 2160 5971 6268 XOR";
"2 1 2161 6046 13793 XOR";
"2 1 6035 5962 6304 XOR";
"2 1 6305 6304 6303 AND";
"2 1 6303 5962 5961 XOR";
"2 1 2149 5961 6301 XOR";
"2 1 6034 5961 6300 XOR";
"2 1 6301 6300 6299 AND";
"2 1 6299 5961 5960 XOR";
"2 1 6298 5960 6044 XOR";
"2 1 2159 6044 6265 XOR";
"2 1 6033 5960 6296 XOR";
"2 1 6302 5961 6045 XOR";
"2 1 2160 6045 6269 XOR";
"2 1 6269 5971 6055 XOR";
"2 1 2170 6055 13794 XOR";
"2 1 6045 5971 6267 XOR";
"2 1 6268 6267 6266 AND";
"2 1 6266 5971 5970 XOR";
"2 1 2159 5970 6264 XOR";
"2 1 6044 5970 6263 XOR";
"2 1 6265 5970 6054 XOR";
"2 1 2169 6054 6236 XOR";
"2 1 6264 6263 6262 AND";
"2 1 6262 5970 5969 XOR";
"2 1 2158 5969 6260 XOR";
"2 1 2170 6055 5979 AND";
"2 1 6236 5979 6063 XOR";
"2 1 2178 6063 13795 XOR";
"2 1 6054 5979 6234 XOR";
"2 1 2169 5979 6235 XOR";
"2 1 6235 6234 6233 AND";
"2 1 6233 5979 5978 XOR";
"2 1 2168 5978 6231 XOR";
"2 1 2178 6063 5986 AND";
"2 1 2177 5986 6206 XOR";
"2 1 2148 5960 6297 XOR";
"2 1 6297 6296 6295 AND";
"2 1 6295 5960 5959 XOR";
"2 1 2147 5959 6293 XOR";
"2 1 7560 5245 5457 XOR";
"2 1 1804 5457 7455 XOR";
"2 1 7568 5247 5459 XOR";
"2 1 1806 5459 7463 XOR";
"2 1 7463 5275 5487 XOR";
"2 1 1834 5487 7362 XOR";
"2 1 5459 5275 7461 XOR";
"2 1 7462 7461 7460 AND";
"2 1 7460 5275 5274 XOR";
"2 1 5458 5274 7457 XOR";
"2 1 1805 5274 7458 XOR";
"2 1 7458 7457 7456 AND";
"2 1 7456 5274 5273 XOR";
"2 1 7455 5273 5485 XOR";
"2 1 1804 5273 7454 XOR";
"2 1 5457 5273 7453 XOR";
"2 1 7454 7453 7452 AND";
"2 1 7452 5273 5272 XOR";
"2 1 7451 5272 5484 XOR";
"2 1 7459 5274 5486 XOR";
"2 1 1833 5486 7358 XOR";
"2 1 1832 5485 7354 XOR";
"2 1 1831 5484 7350 XOR";
"2 1 5456 5272 7449 XOR";
"2 1 1803 5272 7450 XOR";
"2 1 7450 7449 7448 AND";
"2 1 7448 5272 5271 XOR";
"2 1 1802 5271 7446 XOR";
"2 1 7447 5271 5483 XOR";
"2 1 1830 5483 7346 XOR";
"2 1 5455 5271 7445 XOR";
"2 1 7446 7445 7444 AND";
"2 1 7444 5271 5270 XOR";
"2 1 7443 5270 5482 XOR";
"2 1 1829 5482 7342 XOR";
"2 1 1836 5304 7369 XOR";
"2 1 7369 7368 7367 AND";
"2 1 7367 5304 5303 XOR";
"2 1 7366 5303 5515 XOR";
"2 1 1835 5303 7365 XOR";
"2 1 5488 5303 7364 XOR";
"2 1 7365 7364 7363 AND";
"2 1 7363 5303 5302 XOR";
"2 1 1834 5302 7361 XOR";
"2 1 1862 5515 7269 XOR";
"2 1 7269 5329 5541 XOR";
"2 1 1888 5541 7176 XOR";
"2 1 7176 5354 5566 XOR";
"2 1 1913 5566 7087 XOR";
"2 1 7087 5378 5590 XOR";
"2 1 5566 5378 7085 XOR";
"2 1 7086 7085 7084 AND";
"2 1 7084 5378 5377 XOR";
"2 1 1912 5377 7082 XOR";
"2 1 1937 5590 7002 XOR";
"2 1 5590 5613 7000 XOR";
"2 1 7001 7000 6999 AND";
"2 1 6999 5613 5612 XOR";
"2 1 7002 5613 5761 XOR";
"2 1 1936 5612 6997 XOR";
"2 1 5761 5635 6919 XOR";
"2 1 1960 5761 6921 XOR";
"2 1 6921 5635 5783 XOR";
"2 1 6920 6919 6918 AND";
"2 1 6918 5635 5634 XOR";
"2 1 1959 5634 6916 XOR";
"2 1 1982 5783 6844 XOR";
"2 1 6844 5656 5804 XOR";
"2 1 5783 5656 6842 XOR";
"2 1 6843 6842 6841 AND";
"2 1 6841 5656 5655 XOR";
"2 1 1981 5655 6839 XOR";
"2 1 2003 5804 6771 XOR";
"2 1 5804 5676 6769 XOR";
"2 1 6771 5676 5824 XOR";
"2 1 6770 6769 6768 AND";
"2 1 6768 5676 5675 XOR";
"2 1 2002 5675 6766 XOR";
"2 1 5824 5695 6700 XOR";
"2 1 6701 6700 6699 AND";
"2 1 6699 5695 5694 XOR";
"2 1 2022 5694 6697 XOR";
"2 1 5541 5354 7174 XOR";
"2 1 7175 7174 7173 AND";
"2 1 7173 5354 5353 XOR";
"2 1 1887 5353 7171 XOR";
"2 1 5515 5329 7267 XOR";
"2 1 7268 7267 7266 AND";
"2 1 7266 5329 5328 XOR";
"2 1 5487 5302 7360 XOR";
"2 1 7361 7360 7359 AND";
"2 1 7359 5302 5301 XOR";
"2 1 5486 5301 7356 XOR";
"2 1 1833 5301 7357 XOR";
"2 1 7358 5301 5513 XOR";
"2 1 1860 5513 7261 XOR";
"2 1 7357 7356 7355 AND";
"2 1 7355 5301 5300 XOR";
"2 1 7354 5300 5512 XOR";
"2 1 5485 5300 7352 XOR";
"2 1 1832 5300 7353 XOR";
"2 1 7353 7352 7351 AND";
"2 1 7351 5300 5299 XOR";
"2 1 1831 5299 7349 XOR";
"2 1 5484 5299 7348 XOR";
"2 1 7350 5299 5511 XOR";
"2 1 1858 5511 7253 XOR";
"2 1 1859 5512 7257 XOR";
"2 1 7349 7348 7347 AND";
"2 1 7347 5299 5298 XOR";
"2 1 5483 5298 7344 XOR";
"2 1 1830 5298 7345 XOR";
"2 1 7345 7344 7343 AND";
"2 1 7343 5298 5297 XOR";
"2 1 7342 5297 5509 XOR";
"2 1 1856 5509 7245 XOR";
"2 1 7346 5298 5510 XOR";
"2 1 1857 5510 7249 XOR";
"2 1 7362 5302 5514 XOR";
"2 1 5514 5328 7263 XOR";
"2 1 1861 5514 7265 XOR";
"2 1 7265 5328 5540 XOR";
"2 1 1887 5540 7172 XOR";
"2 1 7172 5353 5565 XOR";
"2 1 1912 5565 7083 XOR";
"2 1 7083 5377 5589 XOR";
"2 1 5565 5377 7081 XOR";
"2 1 7082 7081 7080 AND";
"2 1 7080 5377 5376 XOR";
"2 1 1911 5376 7078 XOR";
"2 1 1936 5589 6998 XOR";
"2 1 5589 5612 6996 XOR";
"2 1 6997 6996 6995 AND";
"2 1 6995 5612 5611 XOR";
"2 1 1935 5611 6993 XOR";
"2 1 6998 5612 5760 XOR";
"2 1 1959 5760 6917 XOR";
"2 1 6917 5634 5782 XOR";
"2 1 5760 5634 6915 XOR";
"2 1 6916 6915 6914 AND";
"2 1 6914 5634 5633 XOR";
"2 1 1958 5633 6912 XOR";
"2 1 1981 5782 6840 XOR";
"2 1 5782 5655 6838 XOR";
"2 1 6839 6838 6837 AND";
"2 1 6837 5655 5654 XOR";
"2 1 1980 5654 6835 XOR";
"2 1 5540 5353 7170 XOR";
"2 1 7171 7170 7169 AND";
"2 1 7169 5353 5352 XOR";
"2 1 1886 5352 7167 XOR";
"2 1 6840 5655 5803 XOR";
"2 1 2002 5803 6767 XOR";
"2 1 6767 5675 5823 XOR";
"2 1 5823 5694 6696 XOR";
"2 1 5803 5675 6765 XOR";
"2 1 6766 6765 6764 AND";
"2 1 6764 5675 5674 XOR";
"2 1 2001 5674 6762 XOR";
"2 1 6697 6696 6695 AND";
"2 1 6695 5694 5693 XOR";
"2 1 2022 5823 6698 XOR";
"2 1 6698 5694 5842 XOR";
"2 1 2021 5693 6693 XOR";
"2 1 2041 5842 6633 XOR";
"2 1 1861 5328 7264 XOR";
"2 1 7264 7263 7262 AND";
"2 1 7262 5328 5327 XOR";
"2 1 7261 5327 5539 XOR";
"2 1 1886 5539 7168 XOR";
"2 1 7168 5352 5564 XOR";
"2 1 1911 5564 7079 XOR";
"2 1 5564 5376 7077 XOR";
"2 1 7079 5376 5588 XOR";
"2 1 5588 5611 6992 XOR";
"2 1 6993 6992 6991 AND";
"2 1 6991 5611 5610 XOR";
"2 1 1935 5588 6994 XOR";
"2 1 6994 5611 5759 XOR";
"2 1 1934 5610 6989 XOR";
"2 1 1958 5759 6913 XOR";
"2 1 6913 5633 5781 XOR";
"2 1 5759 5633 6911 XOR";
"2 1 6912 6911 6910 AND";
"2 1 6910 5633 5632 XOR";
"2 1 1980 5781 6836 XOR";
"2 1 6836 5654 5802 XOR";
"2 1 2001 5802 6763 XOR";
"2 1 6763 5674 5822 XOR";
"2 1 5781 5654 6834 XOR";
"2 1 6835 6834 6833 AND";
"2 1 6833 5654 5653 XOR";
"2 1 1979 5653 6831 XOR";
"2 1 1957 5632 6908 XOR";
"2 1 2021 5822 6694 XOR";
"2 1 6694 5693 5841 XOR";
"2 1 5822 5693 6692 XOR";
"2 1 6693 6692 6691 AND";
"2 1 6691 5693 5692 XOR";
"2 1 2020 5692 6689 XOR";
"2 1 7078 7077 7076 AND";
"2 1 7076 5376 5375 XOR";
"2 1 1910 5375 7074 XOR";
"2 1 2040 5841 6629 XOR";
"2 1 5539 5352 7166 XOR";
"2 1 7167 7166 7165 AND";
"2 1 7165 5352 5351 XOR";
"2 1 1885 5351 7163 XOR";
"2 1 5802 5674 6761 XOR";
"2 1 6762 6761 6760 AND";
"2 1 6760 5674 5673 XOR";
"2 1 2000 5673 6758 XOR";
"2 1 1860 5327 7260 XOR";
"2 1 5513 5327 7259 XOR";
"2 1 7260 7259 7258 AND";
"2 1 7258 5327 5326 XOR";
"2 1 5512 5326 7255 XOR";
"2 1 1859 5326 7256 XOR";
"2 1 7257 5326 5538 XOR";
"2 1 5538 5351 7162 XOR";
"2 1 7163 7162 7161 AND";
"2 1 1885 5538 7164 XOR";
"2 1 7164 5351 5563 XOR";
"2 1 1910 5563 7075 XOR";
"2 1 7075 5375 5587 XOR";
"2 1 1934 5587 6990 XOR";
"2 1 6990 5610 5758 XOR";
"2 1 5563 5375 7073 XOR";
"2 1 5587 5610 6988 XOR";
"2 1 6989 6988 6987 AND";
"2 1 6987 5610 5609 XOR";
"2 1 1933 5609 6985 XOR";
"2 1 1957 5758 6909 XOR";
"2 1 6909 5632 5780 XOR";
"2 1 5758 5632 6907 XOR";
"2 1 6908 6907 6906 AND";
"2 1 6906 5632 5631 XOR";
"2 1 1956 5631 6904 XOR";
"2 1 5780 5653 6830 XOR";
"2 1 6831 6830 6829 AND";
"2 1 6829 5653 5652 XOR";
"2 1 1978 5652 6827 XOR";
"2 1 1979 5780 6832 XOR";
"2 1 6832 5653 5801 XOR";
"2 1 7074 7073 7072 AND";
"2 1 7072 5375 5374 XOR";
"2 1 1909 5374 7070 XOR";
"2 1 5801 5673 6757 XOR";
"2 1 2000 5801 6759 XOR";
"2 1 6759 5673 5821 XOR";
"2 1 5821 5692 6688 XOR";
"2 1 6689 6688 6687 AND";
"2 1 6758 6757 6756 AND";
"2 1 6756 5673 5672 XOR";
"2 1 2020 5821 6690 XOR";
"2 1 6687 5692 5691 XOR";
"2 1 6690 5692 5840 XOR";
"2 1 2019 5691 6685 XOR";
"2 1 1999 5672 6754 XOR";
"2 1 7256 7255 7254 AND";
"2 1 7254 5326 5325 XOR";
"2 1 5511 5325 7251 XOR";
"2 1 7253 5325 5537 XOR";
"2 1 1884 5537 7160 XOR";
"2 1 1858 5325 7252 XOR";
"2 1 2039 5840 6625 XOR";
"2 1 7161 5351 5350 XOR";
"2 1 5537 5350 7158 XOR";
"2 1 7160 5350 5562 XOR";
"2 1 1909 5562 7071 XOR";
"2 1 7071 5374 5586 XOR";
"2 1 5586 5609 6984 XOR";
"2 1 1933 5586 6986 XOR";
"2 1 6986 5609 5757 XOR";
"2 1 6985 6984 6983 AND";
"2 1 6983 5609 5608 XOR";
"2 1 1932 5608 6981 XOR";
"2 1 1956 5757 6905 XOR";
"2 1 5757 5631 6903 XOR";
"2 1 6905 5631 5779 XOR";
"2 1 6904 6903 6902 AND";
"2 1 6902 5631 5630 XOR";
"2 1 1955 5630 6900 XOR";
"2 1 5562 5374 7069 XOR";
"2 1 7070 7069 7068 AND";
"2 1 7068 5374 5373 XOR";
"2 1 1908 5373 7066 XOR";
"2 1 1978 5779 6828 XOR";
"2 1 6828 5652 5800 XOR";
"2 1 5800 5672 6753 XOR";
"2 1 6754 6753 6752 AND";
"2 1 6752 5672 5671 XOR";
"2 1 5779 5652 6826 XOR";
"2 1 6827 6826 6825 AND";
"2 1 6825 5652 5651 XOR";
"2 1 1977 5651 6823 XOR";
"2 1 1998 5671 6750 XOR";
"2 1 1884 5350 7159 XOR";
"2 1 7159 7158 7157 AND";
"2 1 7157 5350 5349 XOR";
"2 1 1999 5800 6755 XOR";
"2 1 6755 5672 5820 XOR";
"2 1 2019 5820 6686 XOR";
"2 1 5820 5691 6684 XOR";
"2 1 6685 6684 6683 AND";
"2 1 6686 5691 5839 XOR";
"2 1 6683 5691 5690 XOR";
"2 1 2018 5690 6681 XOR";
"2 1 1883 5349 7155 XOR";
"2 1 2038 5839 6621 XOR";
"2 1 7252 7251 7250 AND";
"2 1 7250 5325 5324 XOR";
"2 1 7249 5324 5536 XOR";
"2 1 1883 5536 7156 XOR";
"2 1 5536 5349 7154 XOR";
"2 1 7155 7154 7153 AND";
"2 1 7153 5349 5348 XOR";
"2 1 7156 5349 5561 XOR";
"2 1 1908 5561 7067 XOR";
"2 1 7067 5373 5585 XOR";
"2 1 1932 5585 6982 XOR";
"2 1 5585 5608 6980 XOR";
"2 1 6981 6980 6979 AND";
"2 1 6979 5608 5607 XOR";
"2 1 5561 5373 7065 XOR";
"2 1 7066 7065 7064 AND";
"2 1 7064 5373 5372 XOR";
"2 1 1857 5324 7248 XOR";
"2 1 6982 5608 5756 XOR";
"2 1 5756 5630 6899 XOR";
"2 1 6900 6899 6898 AND";
"2 1 6898 5630 5629 XOR";
"2 1 1955 5756 6901 XOR";
"2 1 6901 5630 5778 XOR";
"2 1 1977 5778 6824 XOR";
"2 1 6824 5651 5799 XOR";
"2 1 5778 5651 6822 XOR";
"2 1 6823 6822 6821 AND";
"2 1 1998 5799 6751 XOR";
"2 1 6751 5671 5819 XOR";
"2 1 5799 5671 6749 XOR";
"2 1 6750 6749 6748 AND";
"2 1 6748 5671 5670 XOR";
"2 1 2018 5819 6682 XOR";
"2 1 6682 5690 5838 XOR";
"2 1 5510 5324 7247 XOR";
"2 1 7248 7247 7246 AND";
"2 1 7246 5324 5323 XOR";
"2 1 7245 5323 5535 XOR";
"2 1 1882 5535 7152 XOR";
"2 1 7152 5348 5560 XOR";
"2 1 1907 5560 7063 XOR";
"2 1 7063 5372 5584 XOR";
"2 1 1931 5584 6978 XOR";
"2 1 6978 5607 5755 XOR";
"2 1 1954 5755 6897 XOR";
"2 1 6897 5629 5777 XOR";
"2 1 1976 5777 6820 XOR";
"2 1 6821 5651 5650 XOR";
"2 1 6820 5650 5798 XOR";
"2 1 1997 5798 6747 XOR";
"2 1 6747 5670 5818 XOR";
"2 1 2037 5838 6617 XOR";
"2 1 5819 5690 6680 XOR";
"2 1 6681 6680 6679 AND";
"2 1 6679 5690 5689 XOR";
"2 1 2017 5818 6678 XOR";
"2 1 6678 5689 5837 XOR";
"2 1 2036 5837 6613 XOR";
"2 1 2023 5824 6702 XOR";
"2 1 6702 5695 5843 XOR";
"2 1 5843 5713 6635 XOR";
"2 1 6636 6635 6634 AND";
"2 1 6634 5713 5712 XOR";
"2 1 5842 5712 6631 XOR";
"2 1 6633 5712 5860 XOR";
"2 1 2041 5712 6632 XOR";
"2 1 6632 6631 6630 AND";
"2 1 6630 5712 5711 XOR";
"2 1 2040 5711 6628 XOR";
"2 1 6629 5711 5859 XOR";
"2 1 5841 5711 6627 XOR";
"2 1 6628 6627 6626 AND";
"2 1 6626 5711 5710 XOR";
"2 1 2039 5710 6624 XOR";
"2 1 6625 5710 5858 XOR";
"2 1 2057 5858 6564 XOR";
"2 1 5840 5710 6623 XOR";
"2 1 2058 5859 6568 XOR";
"2 1 6624 6623 6622 AND";
"2 1 6622 5710 5709 XOR";
"2 1 5839 5709 6619 XOR";
"2 1 6621 5709 5857 XOR";
"2 1 2056 5857 6560 XOR";
"2 1 2038 5709 6620 XOR";
"2 1 6620 6619 6618 AND";
"2 1 6618 5709 5708 XOR";
"2 1 2037 5708 6616 XOR";
"2 1 5838 5708 6615 XOR";
"2 1 6616 6615 6614 AND";
"2 1 6614 5708 5707 XOR";
"2 1 6613 5707 5855 XOR";
"2 1 2054 5855 6552 XOR";
"2 1 2042 5843 6637 XOR";
"2 1 6637 5713 5861 XOR";
"2 1 5861 5730 6574 XOR";
"2 1 6575 6574 6573 AND";
"2 1 6573 5730 5729 XOR";
"2 1 2059 5729 6571 XOR";
"2 1 5860 5729 6570 XOR";
"2 1 2060 5861 6576 XOR";
"2 1 6576 5730 5878 XOR";
"2 1 2077 5878 6519 XOR";
"2 1 6519 5746 5894 XOR";
"2 1 2093 5894 6466 XOR";
"2 1 5894 5909 6464 XOR";
"2 1 6465 6464 6463 AND";
"2 1 6463 5909 5908 XOR";
"2 1 2092 5908 6461 XOR";
"2 1 6466 5909 5993 XOR";
"2 1 2108 5993 6417 XOR";
"2 1 6417 5923 6007 XOR";
"2 1 6007 5936 6370 XOR";
"2 1 6371 6370 6369 AND";
"2 1 5993 5923 6415 XOR";
"2 1 6416 6415 6414 AND";
"2 1 6414 5923 5922 XOR";
"2 1 2107 5922 6412 XOR";
"2 1 2059 5860 6572 XOR";
"2 1 6572 5729 5877 XOR";
"2 1 2076 5877 6515 XOR";
"2 1 6571 6570 6569 AND";
"2 1 6569 5729 5728 XOR";
"2 1 6568 5728 5876 XOR";
"2 1 2058 5728 6567 XOR";
"2 1 2075 5876 6511 XOR";
"2 1 5859 5728 6566 XOR";
"2 1 6567 6566 6565 AND";
"2 1 6565 5728 5727 XOR";
"2 1 2057 5727 6563 XOR";
"2 1 6564 5727 5875 XOR";
"2 1 2074 5875 6507 XOR";
"2 1 5858 5727 6562 XOR";
"2 1 6563 6562 6561 AND";
"2 1 6561 5727 5726 XOR";
"2 1 5857 5726 6558 XOR";
"2 1 6560 5726 5874 XOR";
"2 1 2073 5874 6503 XOR";
"2 1 2056 5726 6559 XOR";
"2 1 6559 6558 6557 AND";
"2 1 6557 5726 5725 XOR";
"2 1 2055 5725 6555 XOR";
"2 1 6617 5708 5856 XOR";
"2 1 5856 5725 6554 XOR";
"2 1 2055 5856 6556 XOR";
"2 1 6556 5725 5873 XOR";
"2 1 2072 5873 6499 XOR";
"2 1 6555 6554 6553 AND";
"2 1 6553 5725 5724 XOR";
"2 1 6552 5724 5872 XOR";
"2 1 2071 5872 6495 XOR";
"2 1 5878 5746 6517 XOR";
"2 1 6518 6517 6516 AND";
"2 1 6516 5746 5745 XOR";
"2 1 2076 5745 6514 XOR";
"2 1 6515 5745 5893 XOR";
"2 1 5893 5908 6460 XOR";
"2 1 6461 6460 6459 AND";
"2 1 6459 5908 5907 XOR";
"2 1 2091 5907 6457 XOR";
"2 1 2092 5893 6462 XOR";
"2 1 6462 5908 5992 XOR";
"2 1 2107 5992 6413 XOR";
"2 1 5992 5922 6411 XOR";
"2 1 6412 6411 6410 AND";
"2 1 6410 5922 5921 XOR";
"2 1 2106 5921 6408 XOR";
"2 1 6413 5922 6006 XOR";
"2 1 5877 5745 6513 XOR";
"2 1 2121 6006 6368 XOR";
"2 1 6514 6513 6512 AND";
"2 1 6512 5745 5744 XOR";
"2 1 2075 5744 6510 XOR";
"2 1 6511 5744 5892 XOR";
"2 1 2091 5892 6458 XOR";
"2 1 6458 5907 5991 XOR";
"2 1 2106 5991 6409 XOR";
"2 1 5892 5907 6456 XOR";
"2 1 6457 6456 6455 AND";
"2 1 6455 5907 5906 XOR";
"2 1 2090 5906 6453 XOR";
"2 1 6409 5921 6005 XOR";
"2 1 2120 6005 6364 XOR";
"2 1 5876 5744 6509 XOR";
"2 1 6510 6509 6508 AND";
"2 1 6508 5744 5743 XOR";
"2 1 6507 5743 5891 XOR";
"2 1 5891 5906 6452 XOR";
"2 1 2090 5891 6454 XOR";
"2 1 6454 5906 5990 XOR";
"2 1 6453 6452 6451 AND";
"2 1 2105 5990 6405 XOR";
"2 1 6451 5906 5905 XOR";
"2 1 2074 5743 6506 XOR";
"2 1 5875 5743 6505 XOR";
"2 1 6506 6505 6504 AND";
"2 1 6504 5743 5742 XOR";
"2 1 6503 5742 5890 XOR";
"2 1 2073 5742 6502 XOR";
"2 1 5874 5742 6501 XOR";
"2 1 5890 5905 6448 XOR";
"2 1 2089 5890 6450 XOR";
"2 1 6450 5905 5989 XOR";
"2 1 2104 5989 6401 XOR";
"2 1 6502 6501 6500 AND";
"2 1 2089 5905 6449 XOR";
"2 1 6449 6448 6447 AND";
"2 1 6447 5905 5904 XOR";
"2 1 2088 5904 6445 XOR";
"2 1 6500 5742 5741 XOR";
"2 1 6499 5741 5889 XOR";
"2 1 2072 5741 6498 XOR";
"2 1 5889 5904 6444 XOR";
"2 1 5873 5741 6497 XOR";
"2 1 6498 6497 6496 AND";
"2 1 6445 6444 6443 AND";
"2 1 6496 5741 5740 XOR";
"2 1 6495 5740 5888 XOR";
"2 1 2087 5888 6442 XOR";
"2 1 6443 5904 5903 XOR";
"2 1 6442 5903 5987 XOR";
"2 1 2102 5987 6393 XOR";
"2 1 5991 5921 6407 XOR";
"2 1 6408 6407 6406 AND";
"2 1 6406 5921 5920 XOR";
"2 1 6405 5920 6004 XOR";
"2 1 2105 5920 6404 XOR";
"2 1 2119 6004 6360 XOR";
"2 1 5990 5920 6403 XOR";
"2 1 6404 6403 6402 AND";
"2 1 6402 5920 5919 XOR";
"2 1 5989 5919 6399 XOR";
"2 1 2104 5919 6400 XOR";
"2 1 6401 5919 6003 XOR";
"2 1 2118 6003 6356 XOR";
"2 1 6400 6399 6398 AND";
"2 1 6398 5919 5918 XOR";
"2 1 2103 5918 6396 XOR";
"2 1 2088 5889 6446 XOR";
"2 1 6369 5936 5935 XOR";
"2 1 2121 5935 6367 XOR";
"2 1 6006 5935 6366 XOR";
"2 1 6367 6366 6365 AND";
"2 1 6365 5935 5934 XOR";
"2 1 6005 5934 6362 XOR";
"2 1 2120 5934 6363 XOR";
"2 1 6363 6362 6361 AND";
"2 1 6361 5934 5933 XOR";
"2 1 6004 5933 6358 XOR";
"2 1 6360 5933 6017 XOR";
"2 1 2132 6017 6319 XOR";
"2 1 6364 5934 6018 XOR";
"2 1 2133 6018 6323 XOR";
"2 1 2119 5933 6359 XOR";
"2 1 6359 6358 6357 AND";
"2 1 6357 5933 5932 XOR";
"2 1 6003 5932 6354 XOR";
"2 1 2118 5932 6355 XOR";
"2 1 6355 6354 6353 AND";
"2 1 6353 5932 5931 XOR";
"2 1 6356 5932 6016 XOR";
"2 1 2117 5931 6351 XOR";
"2 1 6368 5935 6019 XOR";
"2 1 2134 6019 6327 XOR";
"2 1 2131 6016 6315 XOR";
"2 1 2122 6007 6372 XOR";
"2 1 6372 5936 6020 XOR";
"2 1 2135 6020 6331 XOR";
"2 1 6331 5948 6032 XOR";
"2 1 2147 6032 6294 XOR";
"2 1 6020 5948 6329 XOR";
"2 1 6294 5959 6043 XOR";
"2 1 6043 5969 6259 XOR";
"2 1 6260 6259 6258 AND";
"2 1 6258 5969 5968 XOR";
"2 1 6032 5959 6292 XOR";
"2 1 6293 6292 6291 AND";
"2 1 6291 5959 5958 XOR";
"2 1 2146 5958 6289 XOR";
"2 1 2158 6043 6261 XOR";
"2 1 6261 5969 6053 XOR";
"2 1 6053 5978 6230 XOR";
"2 1 6231 6230 6229 AND";
"2 1 6229 5978 5977 XOR";
"2 1 2168 6053 6232 XOR";
"2 1 6232 5978 6062 XOR";
"2 1 2177 6062 6207 XOR";
"2 1 6207 5986 6070 XOR";
"2 1 2185 6070 6076 AND";
"2 1 2185 6070 13796 XOR";
"2 1 2184 6076 6181 XOR";
"2 1 2157 5968 6256 XOR";
"2 1 6062 5986 6205 XOR";
"2 1 6206 6205 6204 AND";
"2 1 6204 5986 5985 XOR";
"2 1 2176 5985 6202 XOR";
"2 1 6330 6329 6328 AND";
"2 1 6328 5948 5947 XOR";
"2 1 6327 5947 6031 XOR";
"2 1 6019 5947 6325 XOR";
"2 1 2146 6031 6290 XOR";
"2 1 6290 5958 6042 XOR";
"2 1 2157 6042 6257 XOR";
"2 1 6042 5968 6255 XOR";
"2 1 6256 6255 6254 AND";
"2 1 6254 5968 5967 XOR";
"2 1 6257 5968 6052 XOR";
"2 1 6052 5977 6226 XOR";
"2 1 2167 6052 6228 XOR";
"2 1 2134 5947 6326 XOR";
"2 1 6326 6325 6324 AND";
"2 1 6324 5947 5946 XOR";
"2 1 2133 5946 6322 XOR";
"2 1 6323 5946 6030 XOR";
"2 1 2145 6030 6286 XOR";
"2 1 2156 5967 6252 XOR";
"2 1 6031 5958 6288 XOR";
"2 1 6289 6288 6287 AND";
"2 1 6287 5958 5957 XOR";
"2 1 6286 5957 6041 XOR";
"2 1 6041 5967 6251 XOR";
"2 1 2145 5957 6285 XOR";
"2 1 2156 6041 6253 XOR";
"2 1 6030 5957 6284 XOR";
"2 1 6285 6284 6283 AND";
"2 1 6283 5957 5956 XOR";
"2 1 2144 5956 6281 XOR";
"2 1 6253 5967 6051 XOR";
"2 1 2166 6051 6224 XOR";
"2 1 6252 6251 6250 AND";
"2 1 6250 5967 5966 XOR";
"2 1 2155 5966 6248 XOR";
"2 1 6018 5946 6321 XOR";
"2 1 6322 6321 6320 AND";
"2 1 6320 5946 5945 XOR";
"2 1 6017 5945 6317 XOR";
"2 1 6319 5945 6029 XOR";
"2 1 2144 6029 6282 XOR";
"2 1 6282 5956 6040 XOR";
"2 1 6040 5966 6247 XOR";
"2 1 2155 6040 6249 XOR";
"2 1 6248 6247 6246 AND";
"2 1 2132 5945 6318 XOR";
"2 1 6318 6317 6316 AND";
"2 1 6246 5966 5965 XOR";
"2 1 6249 5966 6050 XOR";
"2 1 2154 5965 6244 XOR";
"2 1 2165 6050 6220 XOR";
"2 1 6316 5945 5944 XOR";
"2 1 6315 5944 6028 XOR";
"2 1 2143 6028 6278 XOR";
"2 1 2131 5944 6314 XOR";
"2 1 6016 5944 6313 XOR";
"2 1 6314 6313 6312 AND";
"2 1 6312 5944 5943 XOR";
"2 1 2130 5943 6310 XOR";
"2 1 6029 5956 6280 XOR";
"2 1 6281 6280 6279 AND";
"2 1 6279 5956 5955 XOR";
"2 1 6028 5955 6276 XOR";
"2 1 6278 5955 6039 XOR";
"2 1 2154 6039 6245 XOR";
"2 1 6039 5965 6243 XOR";
"2 1 6244 6243 6242 AND";
"2 1 2143 5955 6277 XOR";
"2 1 6277 6276 6275 AND";
"2 1 6275 5955 5954 XOR";
"2 1 2142 5954 6273 XOR";
"2 1 6242 5965 5964 XOR";
"2 1 2153 5964 6240 XOR";
"2 1 6245 5965 6049 XOR";
"2 1 2164 6049 6216 XOR";
"2 1 6228 5977 6061 XOR";
"2 1 6061 5985 6201 XOR";
"2 1 6202 6201 6200 AND";
"2 1 6200 5985 5984 XOR";
"2 1 2176 6061 6203 XOR";
"2 1 6203 5985 6069 XOR";
"2 1 6069 6076 6180 XOR";
"2 1 6181 6180 6179 AND";
"2 1 2184 6069 6182 XOR";
"2 1 6182 6076 6097 XOR";
"2 1 2175 5984 6198 XOR";
"2 1 6179 6076 6075 XOR";
"2 1 2183 6075 6177 XOR";
"2 1 2191 6097 6081 AND";
"2 1 2190 6081 6160 XOR";
"2 1 2167 5977 6227 XOR";
"2 1 6227 6226 6225 AND";
"2 1 6225 5977 5976 XOR";
"2 1 6224 5976 6060 XOR";
"2 1 6051 5976 6222 XOR";
"2 1 6060 5984 6197 XOR";
"2 1 6198 6197 6196 AND";
"2 1 2175 6060 6199 XOR";
"2 1 2166 5976 6223 XOR";
"2 1 6223 6222 6221 AND";
"2 1 6199 5984 6068 XOR";
"2 1 6068 6075 6176 XOR";
"2 1 6177 6176 6175 AND";
"2 1 2183 6068 6178 XOR";
"2 1 6178 6075 6096 XOR";
"2 1 6096 6081 6159 XOR";
"2 1 2190 6096 6161 XOR";
"2 1 6161 6081 6102 XOR";
"2 1 2196 6102 13798 XOR";
"2 1 6160 6159 6158 AND";
"2 1 2196 6102 6085 AND";
"2 1 2195 6085 6143 XOR";
"2 1 6221 5976 5975 XOR";
"2 1 6050 5975 6218 XOR";
"2 1 6220 5975 6059 XOR";
"2 1 6196 5984 5983 XOR";
"2 1 6059 5983 6193 XOR";
"2 1 2174 6059 6195 XOR";
"2 1 6175 6075 6074 XOR";
"2 1 2182 6074 6173 XOR";
"2 1 6195 5983 6067 XOR";
"2 1 2182 6067 6174 XOR";
"2 1 6174 6074 6095 XOR";
"2 1 6067 6074 6172 XOR";
"2 1 6173 6172 6171 AND";
"2 1 2189 6095 6157 XOR";
"2 1 6158 6081 6080 XOR";
"2 1 6095 6080 6155 XOR";
"2 1 2189 6080 6156 XOR";
"2 1 2174 5983 6194 XOR";
"2 1 6194 6193 6192 AND";
"2 1 6157 6080 6101 XOR";
"2 1 6101 6085 6142 XOR";
"2 1 6143 6142 6141 AND";
"2 1 6141 6085 6084 XOR";
"2 1 2194 6084 6139 XOR";
"2 1 6192 5983 5982 XOR";
"2 1 2173 5982 6190 XOR";
"2 1 2165 5975 6219 XOR";
"2 1 6219 6218 6217 AND";
"2 1 6217 5975 5974 XOR";
"2 1 6216 5974 6058 XOR";
"2 1 2173 6058 6191 XOR";
"2 1 2164 5974 6215 XOR";
"2 1 6049 5974 6214 XOR";
"2 1 6191 5982 6066 XOR";
"2 1 6215 6214 6213 AND";
"2 1 6058 5982 6189 XOR";
"2 1 6190 6189 6188 AND";
"2 1 6188 5982 5981 XOR";
"2 1 6213 5974 5973 XOR";
"2 1 2163 5973 6211 XOR";
"2 1 2172 5981 6186 XOR";
"2 1 2181 6066 6170 XOR";
"2 1 6156 6155 6154 AND";
"2 1 6154 6080 6079 XOR";
"2 1 2188 6079 6152 XOR";
"2 1 6171 6074 6073 XOR";
"2 1 6066 6073 6168 XOR";
"2 1 2181 6073 6169 XOR";
"2 1 6169 6168 6167 AND";
"2 1 6167 6073 6072 XOR";
"2 1 2180 6072 6165 XOR";
"2 1 6170 6073 6094 XOR";
"2 1 6094 6079 6151 XOR";
"2 1 2188 6094 6153 XOR";
"2 1 6153 6079 6100 XOR";
"2 1 2194 6100 6140 XOR";
"2 1 6100 6084 6138 XOR";
"2 1 6152 6151 6150 AND";
"2 1 6150 6079 6078 XOR";
"2 1 2187 6078 6148 XOR";
"2 1 6139 6138 6137 AND";
"2 1 6137 6084 6083 XOR";
"2 1 2193 6083 6135 XOR";
"2 1 6140 6084 6105 XOR";
"2 1 2199 6105 6131 XOR";
"2 1 2195 6101 6144 XOR";
"2 1 6144 6085 6106 XOR";
"2 1 2200 6106 13799 XOR";
"2 1 2200 6106 6088 AND";
"2 1 6131 6088 6109 XOR";
"2 1 2199 6088 6130 XOR";
"2 1 2203 6109 6090 AND";
"2 1 2202 6090 6121 XOR";
"2 1 2203 6109 13800 XOR";
"2 1 6105 6088 6129 XOR";
"2 1 6130 6129 6128 AND";
"2 1 6128 6088 6087 XOR";
"2 1 2198 6087 6126 XOR";
"2 1 2191 6097 13797 XOR";
"2 1 6446 5904 5988 XOR";
"2 1 5988 5918 6395 XOR";
"2 1 2103 5988 6397 XOR";
"2 1 6397 5918 6002 XOR";
"2 1 6002 5931 6350 XOR";
"2 1 2117 6002 6352 XOR";
"2 1 6351 6350 6349 AND";
"2 1 6349 5931 5930 XOR";
"2 1 6352 5931 6015 XOR";
"2 1 2130 6015 6311 XOR";
"2 1 6311 5943 6027 XOR";
"2 1 6015 5943 6309 XOR";
"2 1 6027 5954 6272 XOR";
"2 1 6310 6309 6308 AND";
"2 1 6308 5943 5942 XOR";
"2 1 2142 6027 6274 XOR";
"2 1 6274 5954 6038 XOR";
"2 1 2153 6038 6241 XOR";
"2 1 6038 5964 6239 XOR";
"2 1 6241 5964 6048 XOR";
"2 1 2163 6048 6212 XOR";
"2 1 6048 5973 6210 XOR";
"2 1 6240 6239 6238 AND";
"2 1 6238 5964 5963 XOR";
"2 1 6211 6210 6209 AND";
"2 1 6209 5973 5972 XOR";
"2 1 6396 6395 6394 AND";
"2 1 6394 5918 5917 XOR";
"2 1 6393 5917 6001 XOR";
"2 1 2116 6001 6348 XOR";
"2 1 6348 5930 6014 XOR";
"2 1 2129 6014 6307 XOR";
"2 1 6307 5942 6026 XOR";
"2 1 2141 6026 6270 XOR";
"2 1 6212 5973 6057 XOR";
"2 1 2172 6057 6187 XOR";
"2 1 6187 5981 6065 XOR";
"2 1 2180 6065 6166 XOR";
"2 1 6065 6072 6164 XOR";
"2 1 6165 6164 6163 AND";
"2 1 6057 5981 6185 XOR";
"2 1 6186 6185 6184 AND";
"2 1 6184 5981 5980 XOR";
"2 1 6163 6072 6071 XOR";
"2 1 6166 6072 6093 XOR";
"2 1 6093 6078 6147 XOR";
"2 1 2187 6093 6149 XOR";
"2 1 6148 6147 6146 AND";
"2 1 6146 6078 6077 XOR";
"2 1 6149 6078 6099 XOR";
"2 1 2193 6099 6136 XOR";
"2 1 6136 6083 6104 XOR";
"2 1 2198 6104 6127 XOR";
"2 1 6099 6083 6134 XOR";
"2 1 6135 6134 6133 AND";
"2 1 6133 6083 6082 XOR";
"2 1 6104 6087 6125 XOR";
"2 1 6126 6125 6124 AND";
"2 1 6124 6087 6086 XOR";
"2 1 6127 6087 6108 XOR";
"2 1 6108 6090 6120 XOR";
"2 1 6121 6120 6119 AND";
"2 1 6119 6090 6089 XOR";
"2 1 2202 6108 6122 XOR";
"2 1 6122 6090 6111 XOR";
"2 1 2205 6111 13801 XOR";
"2 1 2205 6111 6091 AND";
"2 1 6273 6272 6271 AND";
"2 1 6271 5954 5953 XOR";
"2 1 6270 5953 6037 XOR";
"2 1 2152 6037 6237 XOR";
"2 1 6237 5963 6047 XOR";
"2 1 2162 6047 6208 XOR";
"2 1 6208 5972 6056 XOR";
"2 1 2171 6056 6183 XOR";
"2 1 6183 5980 6064 XOR";
"2 1 2179 6064 6162 XOR";
"2 1 6162 6071 6092 XOR";
"2 1 2186 6092 6145 XOR";
"2 1 6145 6077 6098 XOR";
"2 1 2192 6098 6132 XOR";
"2 1 6132 6082 6103 XOR";
"2 1 2197 6103 6123 XOR";
"2 1 6123 6086 6107 XOR";
"2 1 2201 6107 6118 XOR";
"2 1 6118 6089 6110 XOR";
"2 1 2204 6110 6117 XOR";
"2 1 6117 6091 6112 XOR";
"2 1 2206 6112 13802 XOR";
"2 1 64 0 13739 AND"].
