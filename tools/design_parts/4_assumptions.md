## What Print Assumptions lists for each theorem
